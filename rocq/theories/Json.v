(** Model of the parts of encoding/json (go1.19 encode.go, decode.go, scanner.go)
    that /repo calls: Marshal and Unmarshal of ipdb.MetaData (writer.go:90,
    reader.go:54) and inf.VersionInfo (plain/packer.go:14, plain/dumper.go:47),
    Marshal of inf.IpInfo (cmd/server/server.go:28).  Outside /repo: part of the
    trusted base. *)
From Verif Require Export Base NetIP NetText Inf Ipdb.
Open Scope N_scope.

(* ------------------------------------------------------------------ *)
(** * UTF-8: unicode/utf8 DecodeRune; (RuneError, 1) for a bad sequence, (RuneError, 0)
    for no input *)
(* Go encoding/json Marshal, called from db/format/ipdb/writer.go:90, db/format/plain/packer.go:14, cmd/server/server.go:17,28 *)
Definition inr (lo hi : N) (b : byte) : bool := (lo <=? b2n b) && (b2n b <=? hi).
(* Go encoding/json Marshal, called from db/format/ipdb/writer.go:90, db/format/plain/packer.go:14, cmd/server/server.go:17,28 *)
Definition RuneError : N := 0xfffd.
(* Go encoding/json Marshal, called from db/format/ipdb/writer.go:90, db/format/plain/packer.go:14, cmd/server/server.go:17,28 *)
Definition DecodeRune (s : bytes) : N * nat :=
  let bad := (RuneError, 1%nat) in
  match s with
  | [] => (RuneError, 0%nat)
  | b0 :: r =>
      let c0 := b2n b0 in
      if c0 <? 0x80 then (c0, 1%nat)
      else if inr 0xc2 0xdf b0 then
        match r with
        | b1 :: _ => if inr 0x80 0xbf b1 then ((c0 - 0xc0) * 64 + (b2n b1 - 0x80), 2%nat) else bad
        | _ => bad
        end
      else if inr 0xe0 0xef b0 then
        let lo := if c0 =? 0xe0 then 0xa0 else 0x80 in
        let hi := if c0 =? 0xed then 0x9f else 0xbf in
        match r with
        | b1 :: b2 :: _ => if inr lo hi b1 && inr 0x80 0xbf b2
            then ((c0 - 0xe0) * 4096 + (b2n b1 - 0x80) * 64 + (b2n b2 - 0x80), 3%nat) else bad
        | _ => bad
        end
      else if inr 0xf0 0xf4 b0 then
        let lo := if c0 =? 0xf0 then 0x90 else 0x80 in
        let hi := if c0 =? 0xf4 then 0x8f else 0xbf in
        match r with
        | b1 :: b2 :: b3 :: _ => if inr lo hi b1 && inr 0x80 0xbf b2 && inr 0x80 0xbf b3
            then ((c0 - 0xf0) * 262144 + (b2n b1 - 0x80) * 4096 + (b2n b2 - 0x80) * 64 + (b2n b3 - 0x80), 4%nat) else bad
        | _ => bad
        end
      else bad
  end.

(** unicode/utf8 EncodeRune *)
(* Go encoding/json Marshal, called from db/format/ipdb/writer.go:90, db/format/plain/packer.go:14, cmd/server/server.go:17,28 *)
Definition EncodeRune (c : N) : bytes :=
  let c := if (0xd800 <=? c) && (c <? 0xe000) || (0x110000 <=? c) then RuneError else c in
  if c <? 0x80 then [n2b c]
  else if c <? 0x800 then [n2b (0xc0 + c / 64); n2b (0x80 + c mod 64)]
  else if c <? 0x10000 then [n2b (0xe0 + c / 4096); n2b (0x80 + c / 64 mod 64); n2b (0x80 + c mod 64)]
  else [n2b (0xf0 + c / 262144); n2b (0x80 + c / 4096 mod 64); n2b (0x80 + c / 64 mod 64); n2b (0x80 + c mod 64)].

(* ------------------------------------------------------------------ *)
(** * Writing *)

(** tables.go htmlSafeSet *)
(* Go encoding/json Marshal, called from db/format/ipdb/writer.go:90, db/format/plain/packer.go:14, cmd/server/server.go:17,28 *)
Definition html_safe (b : byte) : bool :=
  (0x20 <=? b2n b) && negb (existsb (byte_eqb b) [x22; x26; x3c; x3e; x5c]).
(** encode.go:1031-1056 one byte below RuneSelf *)
Definition esc_ascii (b : byte) : bytes :=
  if html_safe b then [b]
  else if byte_eqb b x5c || byte_eqb b x22 then [x5c; b]
  else if byte_eqb b x0a then [x5c; x6e]
  else if byte_eqb b x0d then [x5c; x72]
  else if byte_eqb b x09 then [x5c; x74]
  else str "\u00" ++ [digit (b2n b / 16); digit (b2n b mod 16)].
(** encode.go:1023-1095 string with escapeHTML; [fuel] = the length *)
Fixpoint esc (fuel : nat) (s : bytes) : bytes :=
  match fuel with
  | O => []
  | S k =>
      match s with
      | [] => []
      | b :: r =>
          if b2n b <? 0x80 then esc_ascii b ++ esc k r
          else
            let '(c, n) := DecodeRune s in
            if (c =? RuneError) && (n =? 1)%nat then str "\ufffd" ++ esc k r
            else if (c =? 0x2028) || (c =? 0x2029) then str "\u202" ++ [digit (c mod 16)] ++ esc k (skipn n s)
            else firstn n s ++ esc k (skipn n s)
      end
  end.
Definition enc_str (s : bytes) : bytes := x22 :: esc (length s) s ++ [x22].

(** Values; a number is its text *)
(* Go encoding/json Marshal, called from db/format/ipdb/writer.go:90, db/format/plain/packer.go:14, cmd/server/server.go:17,28 *)
Inductive json :=
| JNull | JBool (b : bool) | JNum (text : bytes) | JStr (s : bytes)
| JArr (l : list json) | JObj (l : list (bytes * json)).

(** encode.go: compact output of maps, structs, slices and scalars *)
(* Go encoding/json Marshal, called from db/format/ipdb/writer.go:90, db/format/plain/packer.go:14, cmd/server/server.go:17,28 *)
Fixpoint enc (j : json) : bytes :=
  match j with
  | JNull => str "null"
  | JBool b => if b then str "true" else str "false"
  | JNum t => t
  | JStr s => enc_str s
  | JArr l => x5b :: join x2c (map enc l) ++ [x5d]
  | JObj l => x7b :: join x2c (map (fun kv => enc_str (fst kv) ++ x3a :: enc (snd kv)) l) ++ [x7d]
  end.

(* Go encoding/json Marshal, called from db/format/ipdb/writer.go:90, db/format/plain/packer.go:14, cmd/server/server.go:17,28 *)
Definition jint (z : Z) : json := JNum (dec_int z).
(** A []string; an empty one is null or [] depending on whether it is nil *)
(* Go encoding/json Marshal, called from db/format/ipdb/writer.go:90, db/format/plain/packer.go:14, cmd/server/server.go:17,28 *)
Definition jstrs (isnil : bool) (l : list bytes) : json :=
  match l with [] => if isnil then JNull else JArr [] | _ => JArr (map JStr l) end.

(** ipdb/fields.go:105-114 (json tags).  encoding/json sorts the keys of a map; the only
    map written has one key (pack: "CN").  The flags say which empty slices are nil. *)
Definition meta_json (nf ne : bool) (m : MetaData) : json :=
  JObj [(str "build", jint (mBuild m)); (str "ip_version", jint (Z.of_N (mIPVersion m)));
        (str "languages", JObj (map (fun kv => (fst kv, jint (snd kv))) (mLanguages m)));
        (str "node_count", jint (mNodeCount m)); (str "total_size", jint (mTotalSize m));
        (str "fields", jstrs nf (mFields m)); (str "version", JStr (mVersion m)); (str "extra", jstrs ne (mExtra m))].
Definition marshal_meta (nf ne : bool) (m : MetaData) : bytes := enc (meta_json nf ne m).

(** db/inf/db_inf.go:30-37 *)
Definition version_json (nl ne : bool) (v : VersionInfo) : json :=
  JObj [(str "IpType", jint (vIpType v)); (str "Count", jint (Z.of_N (vCount v))); (str "Build", jint (vBuild v));
        (str "Version", JStr (vVersion v)); (str "Languages", jstrs nl (vLanguages v)); (str "ExtraInfo", jstrs ne (vExtra v))].
Definition marshal_version (nl ne : bool) (v : VersionInfo) : bytes := enc (version_json nl ne v).

(** inf/db_inf.go:8-20 (omitempty) *)
Definition opt_member (k v : bytes) : list (bytes * json) := if is_nil v then [] else [(k, JStr v)].
Definition info_json (i : IpInfo) : json :=
  JObj (opt_member (str "country") (iCountry i) ++ opt_member (str "district") (iDistrict i)
     ++ opt_member (str "province") (iProvince i) ++ opt_member (str "city") (iCity i)
     ++ opt_member (str "asn") (iAsn i) ++ opt_member (str "isp") (iIsp i)
     ++ opt_member (str "continent") (iContinent i) ++ opt_member (str "line") (iLine i)).
Definition marshal_info (i : IpInfo) : bytes := enc (info_json i).

(* ------------------------------------------------------------------ *)
(** * Reading text *)

(** scanner.go isSpace *)
(* Go encoding/json Unmarshal, called from db/format/ipdb/reader.go:54, db/format/plain/dumper.go:47 *)
Definition is_ws (b : byte) : bool := existsb (byte_eqb b) [x20; x09; x0d; x0a].
(* Go encoding/json Unmarshal, called from db/format/ipdb/reader.go:54, db/format/plain/dumper.go:47 *)
Fixpoint skip_ws (s : bytes) : bytes :=
  match s with b :: r => if is_ws b then skip_ws r else s | [] => [] end.

(** decode.go getu4 after "\u" *)
(* Go encoding/json Unmarshal, called from db/format/ipdb/reader.go:54, db/format/plain/dumper.go:47 *)
Definition u4 (s : bytes) : option (N * bytes) :=
  match s with
  | a :: b :: c :: d :: r =>
      match unhex a, unhex b, unhex c, unhex d with
      | Some a, Some b, Some c, Some d => Some (((a * 16 + b) * 16 + c) * 16 + d, r)
      | _, _, _, _ => None
      end
  | _ => None
  end.
(** decode.go:1215-1310 unquoteBytes, with the errors of the scanner: the text after the
    opening quote; result and rest after the closing quote.  utf8.EncodeRune of a
    surrogate half writes RuneError. *)
Fixpoint unq (fuel : nat) (s : bytes) : option (bytes * bytes) :=
  match fuel with
  | O => None
  | S k =>
      let cont p r := match unq k r with Some (t, rest) => Some (p ++ t, rest) | None => None end in
      match s with
      | [] => None
      | b :: r =>
          if byte_eqb b x22 then Some ([], r)
          else if byte_eqb b x5c then
            match r with
            | e :: r' =>
                if existsb (byte_eqb e) [x22; x5c; x2f] then cont [e] r'
                else if byte_eqb e x62 then cont [x08] r'
                else if byte_eqb e x66 then cont [x0c] r'
                else if byte_eqb e x6e then cont [x0a] r'
                else if byte_eqb e x72 then cont [x0d] r'
                else if byte_eqb e x74 then cont [x09] r'
                else if byte_eqb e x75 then
                  match u4 r' with
                  | Some (c, r2) =>
                      if (0xd800 <=? c) && (c <? 0xe000) then
                        match r2 with
                        | x5c :: x75 :: r3 =>
                            match u4 r3 with
                            | Some (d, r4) =>
                                if (c <? 0xdc00) && (0xdc00 <=? d) && (d <? 0xe000)
                                then cont (EncodeRune ((c - 0xd800) * 1024 + (d - 0xdc00) + 0x10000)) r4
                                else cont (EncodeRune RuneError) r2
                            | None => None
                            end
                        | _ => cont (EncodeRune RuneError) r2
                        end
                      else cont (EncodeRune c) r2
                  | None => None
                  end
                else None
            | [] => None
            end
          else if b2n b <? 0x20 then None
          else if b2n b <? 0x80 then cont [b] r
          else let '(c, n) := DecodeRune s in cont (EncodeRune c) (skipn n s)
      end
  end.

(** scanner.go stateNum*: the longest number at the start of the text *)
(* Go encoding/json Unmarshal, called from db/format/ipdb/reader.go:54, db/format/plain/dumper.go:47 *)
Fixpoint take_digits (s : bytes) : bytes * bytes :=
  match s with
  | c :: r => match undec c with Some _ => let '(d, rest) := take_digits r in (c :: d, rest) | None => ([], s) end
  | [] => ([], [])
  end.
(* Go encoding/json Unmarshal, called from db/format/ipdb/reader.go:54, db/format/plain/dumper.go:47 *)
Definition scan_int (s : bytes) : option (bytes * bytes) :=
  match s with
  | x30 :: r => Some ([x30], r)
  | _ => match take_digits s with ([], _) => None | p => Some p end
  end.
(* Go encoding/json Unmarshal, called from db/format/ipdb/reader.go:54, db/format/plain/dumper.go:47 *)
Definition scan_frac (s : bytes) : option (bytes * bytes) :=
  match s with
  | x2e :: r => match take_digits r with ([], _) => None | (d, rest) => Some (x2e :: d, rest) end
  | _ => Some ([], s)
  end.
(* Go encoding/json Unmarshal, called from db/format/ipdb/reader.go:54, db/format/plain/dumper.go:47 *)
Definition scan_exp (s : bytes) : option (bytes * bytes) :=
  let go e r := let '(sg, r) := match r with x2b :: r' => ([x2b], r') | x2d :: r' => ([x2d], r') | _ => ([], r) end in
                match take_digits r with ([], _) => None | (d, rest) => Some (e :: sg ++ d, rest) end in
  match s with
  | x65 :: r => go x65 r
  | x45 :: r => go x45 r
  | _ => Some ([], s)
  end.
(* Go encoding/json Unmarshal, called from db/format/ipdb/reader.go:54, db/format/plain/dumper.go:47 *)
Definition scan_number (s : bytes) : option (bytes * bytes) :=
  let '(m, s) := match s with x2d :: r => ([x2d], r) | _ => ([], s) end in
  match scan_int s with
  | None => None
  | Some (i, s) =>
      match scan_frac s with
      | None => None
      | Some (f, s) => match scan_exp s with None => None | Some (e, s) => Some (m ++ i ++ f ++ e, s) end
      end
  end.
(* Go encoding/json Unmarshal, called from db/format/ipdb/reader.go:54, db/format/plain/dumper.go:47 *)
Fixpoint strip (p s : bytes) : option bytes :=
  match p, s with
  | [], _ => Some s
  | a :: p', b :: s' => if byte_eqb a b then strip p' s' else None
  | _, _ => None
  end.

(** scanner.go: a value, then its rest.  [fuel] bounds the number of calls; [depth] is
    the number of arrays and objects that may still be opened (pushParseState). *)
(* Go encoding/json Unmarshal, called from db/format/ipdb/reader.go:54, db/format/plain/dumper.go:47 *)
Fixpoint value (fuel depth : nat) (s : bytes) : option (json * bytes) :=
  match fuel with
  | O => None
  | S k =>
      match skip_ws s with
      | [] => None
      | b :: r =>
          if byte_eqb b x22 then match unq (S (length r)) r with Some (t, rest) => Some (JStr t, rest) | None => None end
          else if byte_eqb b x5b then
            match depth with
            | O => None
            | S d =>
                match skip_ws r with
                | c :: r' => if byte_eqb c x5d then Some (JArr [], r')
                             else match elems k d r with Some (l, rest) => Some (JArr l, rest) | None => None end
                | [] => None
                end
            end
          else if byte_eqb b x7b then
            match depth with
            | O => None
            | S d =>
                match skip_ws r with
                | c :: r' => if byte_eqb c x7d then Some (JObj [], r')
                             else match members k d r with Some (l, rest) => Some (JObj l, rest) | None => None end
                | [] => None
                end
            end
          else if byte_eqb b x74 then match strip (str "true") (b :: r) with Some rest => Some (JBool true, rest) | None => None end
          else if byte_eqb b x66 then match strip (str "false") (b :: r) with Some rest => Some (JBool false, rest) | None => None end
          else if byte_eqb b x6e then match strip (str "null") (b :: r) with Some rest => Some (JNull, rest) | None => None end
          else match scan_number (b :: r) with Some (t, rest) => Some (JNum t, rest) | None => None end
      end
  end
with elems (fuel depth : nat) (s : bytes) : option (list json * bytes) :=
  match fuel with
  | O => None
  | S k =>
      match value k depth s with
      | None => None
      | Some (j, r) =>
          match skip_ws r with
          | c :: r' => if byte_eqb c x5d then Some ([j], r')
                       else if byte_eqb c x2c then match elems k depth r' with Some (l, rest) => Some (j :: l, rest) | None => None end
                       else None
          | [] => None
          end
      end
  end
with members (fuel depth : nat) (s : bytes) : option (list (bytes * json) * bytes) :=
  match fuel with
  | O => None
  | S k =>
      match skip_ws s with
      | b :: r =>
          if byte_eqb b x22 then
            match unq (S (length r)) r with
            | Some (key, r1) =>
                match skip_ws r1 with
                | c :: r2 =>
                    if byte_eqb c x3a then
                      match value k depth r2 with
                      | Some (j, r3) =>
                          match skip_ws r3 with
                          | d :: r4 => if byte_eqb d x7d then Some ([(key, j)], r4)
                                       else if byte_eqb d x2c then match members k depth r4 with Some (l, rest) => Some ((key, j) :: l, rest) | None => None end
                                       else None
                          | [] => None
                          end
                      | None => None
                      end
                    else None
                | [] => None
                end
            | None => None
            end
          else None
      | [] => None
      end
  end.

(** scanner.go maxNestingDepth *)
(* Go encoding/json Unmarshal, called from db/format/ipdb/reader.go:54, db/format/plain/dumper.go:47 *)
Definition maxNestingDepth : nat := N.to_nat 10000.

(** decode.go checkValid: the whole input is one value *)
(* Go encoding/json Unmarshal, called from db/format/ipdb/reader.go:54, db/format/plain/dumper.go:47 *)
Definition parse (s : bytes) : option json :=
  match value (2 * length s + 2) maxNestingDepth s with
  | Some (j, r) => if is_nil (skip_ws r) then Some j else None
  | None => None
  end.

(* ------------------------------------------------------------------ *)
(** * Storing into Go values.  None: Unmarshal returns an error (an
    UnmarshalTypeError is returned after the rest was stored; every caller drops
    the value then). *)

(** fold.go: key comparison without regard to case *)
(* Go encoding/json Unmarshal, called from db/format/ipdb/reader.go:54, db/format/plain/dumper.go:47 *)
Fixpoint fold_key (s : bytes) : bytes :=
  match s with
  | xc5 :: xbf :: r => x73 :: fold_key r            (* U+017F *)
  | xe2 :: x84 :: xaa :: r => x6b :: fold_key r     (* U+212A *)
  | c :: r => lower c :: fold_key r
  | [] => []
  end.
(* Go encoding/json Unmarshal, called from db/format/ipdb/reader.go:54, db/format/plain/dumper.go:47 *)
Definition key_is (name key : bytes) : bool := bytes_eqb (fold_key name) (fold_key key).

(** strconv.ParseInt / ParseUint of a JSON number *)
(* Go encoding/json Unmarshal, called from db/format/ipdb/reader.go:54, db/format/plain/dumper.go:47 *)
Definition parse_uint (big : N) (t : bytes) : option N :=
  match some_digits (scan_num undec 10 big 0 0 t) with Some (n, _, []) => Some n | _ => None end.
(* Go encoding/json Unmarshal, called from db/format/ipdb/reader.go:54, db/format/plain/dumper.go:47 *)
Definition parse_int (t : bytes) : option Z :=
  match t with
  | x2d :: r => match parse_uint (2 ^ 63 + 1) r with Some n => Some (- Z.of_N n)%Z | None => None end
  | _ => match parse_uint (2 ^ 63) t with Some n => Some (Z.of_N n) | None => None end
  end.
(* Go encoding/json Unmarshal, called from db/format/ipdb/reader.go:54, db/format/plain/dumper.go:47 *)
Definition get_int (old : Z) (j : json) : option Z :=
  match j with JNull => Some old | JNum t => parse_int t | _ => None end.
(* Go encoding/json Unmarshal, called from db/format/ipdb/reader.go:54, db/format/plain/dumper.go:47 *)
Definition get_uint (big : N) (old : N) (j : json) : option N :=
  match j with JNull => Some old | JNum t => parse_uint big t | _ => None end.
(* Go encoding/json Unmarshal, called from db/format/ipdb/reader.go:54, db/format/plain/dumper.go:47 *)
Definition get_str (old : bytes) (j : json) : option bytes :=
  match j with JNull => Some old | JStr s => Some s | _ => None end.
(** A []string.  (For a key that is repeated Go stores into the old slice: a null
    element then keeps the old string, here it is empty.) *)
(* Go encoding/json Unmarshal, called from db/format/ipdb/reader.go:54, db/format/plain/dumper.go:47 *)
Fixpoint get_all {A B} (f : A -> option B) (l : list A) : option (list B) :=
  match l with
  | [] => Some []
  | x :: r => match f x, get_all f r with Some y, Some ys => Some (y :: ys) | _, _ => None end
  end.
(* Go encoding/json Unmarshal, called from db/format/ipdb/reader.go:54, db/format/plain/dumper.go:47 *)
Definition get_strs (j : json) : option (list bytes) :=
  match j with JNull => Some [] | JArr l => get_all (get_str []) l | _ => None end.
(** A map[string]int, the latest entry first *)
(* Go encoding/json Unmarshal, called from db/format/ipdb/reader.go:54, db/format/plain/dumper.go:47 *)
Definition get_map (old : list (bytes * Z)) (j : json) : option (list (bytes * Z)) :=
  match j with
  | JNull => Some []
  | JObj l => match get_all (fun kv => match get_int 0 (snd kv) with Some z => Some (fst kv, z) | None => None end) l with
              | Some es => Some (rev es ++ old)
              | None => None
              end
  | _ => None
  end.

(* json.Unmarshal into db/format/ipdb/fields.go:105-115 MetaData, called from db/format/ipdb/reader.go:54 *)
Definition set_meta (m : MetaData) (kv : bytes * json) : option MetaData :=
  let '(mkMeta bu iv la nc ts fi ve ex) := m in
  let '(k, j) := kv in
  if key_is (str "build") k then option_map (fun x => mkMeta x iv la nc ts fi ve ex) (get_int bu j)
  else if key_is (str "ip_version") k then option_map (fun x => mkMeta bu x la nc ts fi ve ex) (get_uint (2 ^ 16) iv j)
  else if key_is (str "languages") k then option_map (fun x => mkMeta bu iv x nc ts fi ve ex) (get_map la j)
  else if key_is (str "node_count") k then option_map (fun x => mkMeta bu iv la x ts fi ve ex) (get_int nc j)
  else if key_is (str "total_size") k then option_map (fun x => mkMeta bu iv la nc x fi ve ex) (get_int ts j)
  else if key_is (str "fields") k then option_map (fun x => mkMeta bu iv la nc ts x ve ex) (get_strs j)
  else if key_is (str "version") k then option_map (fun x => mkMeta bu iv la nc ts fi x ex) (get_str ve j)
  else if key_is (str "extra") k then option_map (fun x => mkMeta bu iv la nc ts fi ve x) (get_strs j)
  else Some m.
(* json.Unmarshal into db/inf/db_inf.go:30-37 VersionInfo, called from db/format/plain/dumper.go:47 *)
Definition set_version (v : VersionInfo) (kv : bytes * json) : option VersionInfo :=
  let '(mkVersion ty co bu ve la ex) := v in
  let '(k, j) := kv in
  if key_is (str "IpType") k then option_map (fun x => mkVersion x co bu ve la ex) (get_int ty j)
  else if key_is (str "Count") k then option_map (fun x => mkVersion ty x bu ve la ex) (get_uint (2 ^ 32) co j)
  else if key_is (str "Build") k then option_map (fun x => mkVersion ty co x ve la ex) (get_int bu j)
  else if key_is (str "Version") k then option_map (fun x => mkVersion ty co bu x la ex) (get_str ve j)
  else if key_is (str "Languages") k then option_map (fun x => mkVersion ty co bu ve x ex) (get_strs j)
  else if key_is (str "ExtraInfo") k then option_map (fun x => mkVersion ty co bu ve la x) (get_strs j)
  else Some v.
(* Go encoding/json Unmarshal, called from db/format/ipdb/reader.go:54, db/format/plain/dumper.go:47 *)
Fixpoint set_all {A} (f : A -> bytes * json -> option A) (a : A) (l : list (bytes * json)) : option A :=
  match l with [] => Some a | kv :: r => match f a kv with Some a' => set_all f a' r | None => None end end.

(** json.Unmarshal(data, &meta) into a zero MetaData *)
(* json.Unmarshal into db/format/ipdb/fields.go:105-115 MetaData, called from db/format/ipdb/reader.go:54 *)
Definition unmarshal_meta (data : bytes) : option MetaData :=
  match parse data with
  | Some (JObj l) => set_all set_meta (mkMeta 0 0 [] 0 0 [] [] []) l
  | Some JNull => Some (mkMeta 0 0 [] 0 0 [] [] [])
  | _ => None
  end.
(** json.Unmarshal(data, &t.Version) into a nil *VersionInfo; null leaves it nil *)
(* json.Unmarshal into db/inf/db_inf.go:30-37 VersionInfo, called from db/format/plain/dumper.go:47 *)
Definition unmarshal_version (data : bytes) : option (option VersionInfo) :=
  match parse data with
  | Some (JObj l) => option_map Some (set_all set_version (mkVersion 0 0 0 [] [] []) l)
  | Some JNull => Some None
  | _ => None
  end.

(** Specification of what the Rust and Java readers answer, written on the rows of
    the dataset: no tree, no reader, no 32-bit numbers. *)
From Verif Require Export Spec Inf SpecIpdb.
From Verif Require Import Foreign. (* for the record JInfo only *)
Open Scope N_scope.

(** UTF-8 text: the encodings of Unicode scalar values. *)
Definition scalar (c : N) : Prop := c < 0xd800 \/ 0xe000 <= c < 0x110000.
Definition utf8_enc (c : N) : bytes :=
  if c <? 0x80 then [n2b c]
  else if c <? 0x800 then [n2b (0xc0 + c / 64); n2b (0x80 + c mod 64)]
  else if c <? 0x10000 then [n2b (0xe0 + c / 4096); n2b (0x80 + c / 64 mod 64); n2b (0x80 + c mod 64)]
  else [n2b (0xf0 + c / 262144); n2b (0x80 + c / 4096 mod 64); n2b (0x80 + c / 64 mod 64); n2b (0x80 + c mod 64)].
Definition utf8 (s : bytes) : Prop := exists cs, Forall scalar cs /\ s = flat_map utf8_enc cs.

(** Columns a reader looks at, under their names in a dataset. *)
Definition continent_names : list bytes := [str "continent"; str "continent_code"].
Definition known_columns : list bytes :=
  [str "country"; str "country_name"; str "province"; str "region_name"; str "city"; str "city_name";
   str "isp"; str "isp_domain"; str "asn"; str "line"; str "district"; str "continent"; str "continent_code"].

(** Both readers take 4 bytes as an IPv4 address and 16 bytes as an IPv6 address
    (also when it is an IPv4-mapped one); databases of type 1 hold IPv4 only, of
    type 2 IPv6 only. *)
Definition takes (iptype : Z) (ip : bytes) : Prop :=
  length ip = 4%nat /\ iptype <> 2%Z \/ length ip = 16%nat /\ iptype <> 1%Z.

(* ------------------------------------------------------------------ *)
(** * Rust: missing values crash, a continent that is not one of the seven codes
    is not shown. *)
Definition values_of (names fields values : list bytes) : list bytes :=
  map snd (filter (fun fv => in_array (fst fv) names) (combine fields values)).
Definition code_names (v : bytes) : list bytes :=
  match assoc v continents with Some n => [n] | None => [] end.
Definition rust_info (fields row : list bytes) : IpInfo :=
  mkInfo (column [str "country"; str "country_name"] fields row)
         (column [str "district"] fields row)
         (column [str "province"; str "region_name"] fields row)
         (column [str "city"; str "city_name"] fields row)
         (column [str "asn"] fields row)
         (column [str "isp"; str "isp_domain"] fields row)
         (last (flat_map code_names (values_of continent_names fields row)) [])
         (column [str "line"] fields row).
Definition rust_answer (fields row : list bytes) : res IpInfo :=
  if existsb (fun f => in_array f known_columns) (skipn (length row) fields) then Panic
  else Ok (rust_info fields row).

(* ------------------------------------------------------------------ *)
(** * Java: a missing column or value is null (None), surplus values stay in the last
    column, the line is the last column called line or asn, and a null continent
    crashes. *)
Definition java_parts (n : nat) (row : list bytes) : list (option bytes) :=
  if (length row <=? n)%nat then map Some row ++ repeat None (n - length row)
  else map Some (firstn (n - 1) row ++ [join x09 (skipn (n - 1) row)]).
Definition java_values (names fields : list bytes) (parts : list (option bytes)) : list (option bytes) :=
  map snd (filter (fun fv => in_array (fst fv) names) (combine fields parts)).
Definition java_column (names fields : list bytes) (parts : list (option bytes)) : option bytes :=
  last (java_values names fields parts) None.
Definition is_null (v : option bytes) : bool := match v with None => true | Some _ => false end.
Definition null_continent (fields : list bytes) (parts : list (option bytes)) : bool :=
  existsb is_null (java_values continent_names fields parts).
Definition java_info (fields : list bytes) (parts : list (option bytes)) : JInfo :=
  mkJInfo (java_column [str "country"; str "country_name"] fields parts)
          (java_column [str "district"] fields parts)
          (java_column [str "province"; str "region_name"] fields parts)
          (java_column [str "city"; str "city_name"] fields parts)
          (java_column [str "asn"] fields parts)
          (java_column [str "isp"; str "isp_domain"] fields parts)
          (option_map continent_name (java_column continent_names fields parts))
          (java_column [str "line"; str "asn"] fields parts).
Definition java_answer (fields row : list bytes) : res JInfo :=
  let parts := java_parts (length fields) row in
  if null_continent fields parts then Panic else Ok (java_info fields parts).

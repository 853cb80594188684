(** Specification of a packed database: a prefix-free map from CIDR blocks to
    records and the answers a query gives, written without reference to the
    writer and the reader. *)
From Verif Require Export Spec Inf.
Open Scope N_scope.

Definition block_eqb (b c : block) : bool := (base b =? base c) && (logsz b =? logsz c).
Definition in_blockb (b : block) (a : N) : bool := (base b <=? a) && (a <? base b + 2 ^ logsz b).
(** b lies inside c and is smaller *)
Definition strictly_inside (b c : block) : bool := (logsz b <? logsz c) && in_blockb c (base b).

(** Storing a record: dropped if some stored block is strictly around or strictly
    inside b, otherwise b now has record v. *)
Definition store {V} (m : list (block * V)) (b : block) (v : V) : list (block * V) :=
  if existsb (fun e => strictly_inside b (fst e) || strictly_inside (fst e) b) m then m
  else (b, v) :: filter (fun e => negb (block_eqb (fst e) b)) m.
Definition store_all {V} (l : list (block * V)) : list (block * V) :=
  fold_left (fun m e => store m (fst e) (snd e)) l [].

(** The record of the block that contains address a. *)
Definition lookup {V} (m : list (block * V)) (a : N) : option (block * V) :=
  find (fun e => in_blockb (fst e) a) m.

(** The value of the last column whose name is one of [names] (empty if none). *)
Definition column (names : list bytes) (fields values : list bytes) : bytes :=
  last (map snd (filter (fun fv => in_array (fst fv) names) (combine fields values))) [].

(** Continent codes are shown as names. *)
Definition continents : list (bytes * bytes) :=
  [ (str "AS", str "亚洲"); (str "EU", str "欧洲"); (str "NA", str "北美洲"); (str "SA", str "南美洲");
    (str "AF", str "非洲"); (str "OC", str "大洋洲"); (str "AN", str "南极洲") ].
Definition continent_name (v : bytes) : bytes :=
  match assoc v continents with Some n => n | None => v end.
(** ... in the first continent column. *)
Fixpoint show_continent (fields values : list bytes) : list bytes :=
  match fields, values with
  | f :: fs, v :: vs =>
      if in_array f [str "continent"; str "continent_code"] then continent_name v :: vs
      else v :: show_continent fs vs
  | _, _ => values
  end.

(** What a row with these columns looks like in a query result. *)
Definition row_info (fields row : list bytes) : IpInfo :=
  let values := show_continent fields row in
  mkInfo (column [str "country"; str "country_name"] fields values)
         (column [str "district"] fields values)
         (column [str "province"; str "region_name"] fields values)
         (column [str "city"; str "city_name"] fields values)
         (column [str "asn"] fields values)
         (column [str "isp"; str "isp_domain"] fields values)
         (column [str "continent"; str "continent_code"] fields values)
         (column [str "line"] fields values).

(** Address family of a number. *)
Definition v4b (a : N) : bool := (v4base <=? a) && (a <? v4base + 2 ^ 32).

(** The prefix length reported for a block of either family: its length as an
    IPv4 prefix when the address is IPv4. *)
Definition prefix_len (a : N) (b : block) : nat :=
  if v4b a then N.to_nat (32 - logsz b) else N.to_nat (128 - logsz b).

(** Databases of ip type 1 hold IPv4, of type 2 IPv6, of any other type both. *)
Definition holds_family (iptype : Z) (a : N) : bool :=
  if v4b a then negb (iptype =? 2)%Z else negb (iptype =? 1)%Z.

(** The answer to a query for address number a, m being the stored rows. *)
Definition no_record (fields : list bytes) : res (IpInfo * nat) :=
  if (length fields =? 1)%nat then Ok (emptyInfo, 0%nat) else Err ErrDatabaseError.
Definition answer (fields : list bytes) (iptype : Z) (m : list (block * list bytes)) (a : N)
  : res (IpInfo * nat) :=
  if holds_family iptype a then
    match lookup m a with
    | Some (b, row) =>
        if (length row <? length fields)%nat then Err ErrDatabaseError
        else Ok (row_info fields row, prefix_len a b)
    | None => no_record fields
    end
  else no_record fields.

(** Rows a packed ipdb can hold: a canonical network other than ::/0 and at least
    one value, no value contains a tab, the joined record is below 64 KiB. *)
Record net_ok (r : IpRaw) (b : block) : Prop := {
  no_net : net_is (cidr r) b;
  no_aligned : aligned b;
  no_size : logsz b < 128 }.
Record row_ok (r : IpRaw) (b : block) : Prop := {
  ro_net : net_ok r b;
  ro_some : fvals r <> [];
  ro_tab : Forall (no_byte x09) (fvals r);
  ro_len : N.of_nat (length (join x09 (fvals r))) < 65536 }.

(** No column is called Continent, CONTINENT, ... (any spelling of continent
    other than the lower-case one). *)
Definition ascii_lower (b : byte) : byte :=
  let n := b2n b in if (65 <=? n) && (n <=? 90) then n2b (n + 32) else b.
Definition plain_columns (fields : list bytes) : Prop :=
  forall f, In f fields -> f <> str "continent" -> map ascii_lower f <> str "continent".

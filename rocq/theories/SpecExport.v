(** Specification vocabulary for dumps (C19-C23, C45, C46): address families,
    finders, and the documented export rules, without reference to the code. *)
From Verif Require Export Spec SpecIpdb.
Open Scope N_scope.

(** An address family: spelling length, first address number, first number after it. *)
Record family := mkFamily { fam_len : nat; fam_first : N; fam_end : N }.
Definition fam4 : family := mkFamily 4 v4base (v4base + 2 ^ 32).
Definition fam6 : family := mkFamily 16 0 (2 ^ 128).
(** Only databases declared as IPv6-only (type 2) are dumped as IPv6. *)
Definition dump_family (iptype : Z) : family := if (iptype =? 2)%Z then fam6 else fam4.

(** A well-behaved finder: what it reports for an address of the family is a network
    of that family containing the address, and two reported networks that overlap
    are the same. *)
Record finder_ok {R} (f : family) (find : bytes -> res (IPNet * R)) : Prop := {
  fo_net : forall ip n rec, valid_ip ip -> fam_first f <= addr ip < fam_end f -> find ip = Ok (n, rec) ->
    length (nIP n) = fam_len f /\ exists b, net_is n b /\ aligned b /\ in_block b (addr ip);
  fo_same : forall ip ip' n n' rec rec' b b' a, valid_ip ip -> valid_ip ip' ->
    fam_first f <= addr ip < fam_end f -> fam_first f <= addr ip' < fam_end f ->
    find ip = Ok (n, rec) -> find ip' = Ok (n', rec') -> net_is n b -> net_is n' b' ->
    in_block b a -> in_block b' a -> n = n' }.
(** It has an answer for every address of the family. *)
Definition finder_total {R} (f : family) (find : bytes -> res (IPNet * R)) : Prop :=
  forall ip, valid_ip ip -> fam_first f <= addr ip < fam_end f -> exists n rec, find ip = Ok (n, rec).

(** The addresses a dump asks for: the first one of the family and, after a
    reported network that does not end at the all-ones address, the address
    following it. *)
Inductive asked {R} (find : bytes -> res (IPNet * R)) (first : bytes) : bytes -> Prop :=
| asked_first : asked find first first
| asked_next m n rec b next : asked find first m -> find m = Ok (n, rec) ->
    net_is n b -> aligned b -> val (nIP n) + 2 ^ logsz b < 2 ^ (8 * N.of_nat (length (nIP n))) ->
    length next = length (nIP n) -> addr next = base b + 2 ^ logsz b -> asked find first next.

(** The value of an external field in a record, given the map of external to
    internal names; a name outside the map is looked up as the empty name. *)
Definition field_value (fm : list (bytes * bytes)) (rec : list (bytes * bytes)) (f : bytes) : bytes :=
  let k := match assoc f fm with Some k => k | None => [] end in
  match assoc k rec with Some v => v | None => [] end.

(** A documented rule [key=[!]v1/v2/...:f1,f2,...]. *)
Record rule := mkRule { rkey : bytes; rnot : bool; rvals : list bytes; rkeep : list bytes }.

(** Its condition on a row: the column [rkey] holds (or, negated, does not hold) one of the values. *)
Definition rule_holds (fields row : list bytes) (r : rule) : Prop :=
  exists i v, nth_error fields i = Some (rkey r) /\ nth_error row i = Some v /\
              (if rnot r then ~ In v (rvals r) else In v (rvals r)).

(** row' is row with every column blanked that the rule does not list. *)
Definition blanked (fields row : list bytes) (r : rule) (row' : list bytes) : Prop :=
  length row' = length row /\
  forall i f v, nth_error fields i = Some f -> nth_error row i = Some v ->
    nth_error row' i = Some (if in_array f (rkeep r) then v else []).

(** Rules are applied one after the other. *)
Inductive apply_rules (fields : list bytes) : list rule -> list bytes -> list bytes -> Prop :=
| ar_nil row : apply_rules fields [] row row
| ar_skip r rs row out : ~ rule_holds fields row r -> apply_rules fields rs row out ->
    apply_rules fields (r :: rs) row out
| ar_apply r rs row row' out : rule_holds fields row r -> blanked fields row r row' ->
    apply_rules fields rs row' out -> apply_rules fields (r :: rs) row out.

(** Concrete syntax of a rule text: groups separated by "|". *)
Definition show_group (r : rule) : bytes :=
  rkey r ++ str "=" ++ (if rnot r then str "!" else []) ++ join x2f (rvals r) ++ str ":" ++ join x2c (rkeep r).
Definition show_rules (fields : list bytes) (rs : list rule) : bytes :=
  join x7c (join x2c fields :: map show_group rs).

(** Texts without a given set of separators. *)
Definition no_bytes (cs : bytes) (s : bytes) : Prop := Forall (fun c => no_byte c s) cs.
Definition name_ok (s : bytes) : Prop := no_bytes (str "|,:=") s.
Definition value_ok (s : bytes) : Prop := no_bytes (str "|,:=/") s.
Definition starts_with_not (s : bytes) : Prop := exists r, s = x21 :: r.

(** Rules that can be written: at least one value and one field, no separator in
    them, and a positive condition does not begin with "!". *)
Record rule_ok (r : rule) : Prop := {
  ru_key : name_ok (rkey r);
  ru_vals : rvals r <> [] /\ Forall value_ok (rvals r);
  ru_not : rnot r = false -> forall v, hd_error (rvals r) = Some v -> ~ starts_with_not v;
  ru_keep : rkeep r <> [] /\ Forall name_ok (rkeep r) }.

(** Rules in force: those that only name selected fields. *)
Definition in_force (fields : list bytes) (r : rule) : bool :=
  in_array (rkey r) fields && forallb (fun f => in_array f fields) (rkeep r).

(** The columns of a dump by external name: country is stored in the column
    country or country_name, and so on. *)
Definition common_columns : list (bytes * bytes) :=
  [ (str "country", str "country_name"); (str "province", str "region_name"); (str "city", str "city_name");
    (str "isp", str "isp_domain"); (str "asn", str "asn"); (str "continent", str "continent_code");
    (str "utcOffset", str "utc_offset"); (str "latitude", str "latitude"); (str "longitude", str "longitude");
    (str "chinaAdminCode", str "china_admin_code"); (str "district", str "district"); (str "line", str "line") ].

(** The value of external field f of a packed row: a name outside the table is
    looked up as the column with the empty name. *)
Definition dumped (fields row : list bytes) (f : bytes) : bytes :=
  let values := show_continent fields row in
  match assoc f common_columns with
  | Some g => column [f; g] fields values
  | None => column [[]] fields values
  end.

(** The part of a block inside the family of address a (an IPv4 address only sees
    the IPv4 part of a larger block). *)
Definition family_part (a : N) (b : block) : block :=
  if v4b a && (32 <? logsz b) then mkBlock v4base 32 else b.

(** The external names of the known columns of a packed file, in order. *)
Definition known_names (fields : list bytes) : list bytes :=
  flat_map (fun f => match find (fun p => in_array f [fst p; snd p]) common_columns with
                     | Some p => [fst p] | None => [] end) fields.

(** d dumps exactly the addresses s .. e-1 of the stored rows m (columns fields):
    its networks tile s .. e-1, each is one stored network (as far as it lies in
    s .. e-1), and its values are those of the stored row after the rules. *)
Definition dumps (fields : list bytes) (m : list (block * list bytes)) (rs : list rule) (s e : N) (d : IpData) : Prop :=
  exists ds, tiles s ds e /\ Forall2 (fun r b => net_is (cidr r) b) (dIps d) ds /\
    forall a b row, s <= a < e -> lookup m a = Some (b, row) ->
      exists r db, In (r, db) (combine (dIps d) ds) /\ in_block db a /\
        (forall x, in_block db x <-> in_block b x /\ s <= x < e) /\
        length (fvals r) = length (dFields d) /\
        (NoDup (dFields d) -> apply_rules (dFields d) rs (map (dumped fields row) (dFields d)) (fvals r)).

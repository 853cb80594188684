(** Specification vocabulary for the memip format (C33). *)
From Verif Require Export Spec Inf SpecIpdb.
Open Scope N_scope.

(** The first column called f of a row. *)
Fixpoint first_column (f : bytes) (fields row : list bytes) : option bytes :=
  match fields, row with
  | g :: fs, v :: vs => if bytes_eqb g f then Some v else first_column f fs vs
  | _, _ => None
  end.

(** "默认" stands for missing, empty and reserved (保留...) values. *)
Definition dflt : bytes := str "默认".
Definition or_default (v : option bytes) : bytes :=
  match v with
  | None => dflt
  | Some v => if bytes_eqb v [] then dflt
              else if bytes_eqb (firstn (length (str "保留")) v) (str "保留") then dflt else v
  end.
(** Only three operators have a name of their own. *)
Definition isp_class (v : bytes) : bytes :=
  if in_array v [str "电信"; str "联通"; str "移动"; dflt] then v else str "其他".

(** The six values of a row: city, province, district, isp, country, continent. *)
Definition memip_view (fields row : list bytes) : list bytes :=
  let get f := or_default (first_column f fields row) in
  let province := get (str "province") in
  [ get (str "city"); province;
    if in_array province [str "香港"; str "澳门"; str "台湾"] then dflt else get (str "district");
    isp_class (get (str "isp")); get (str "country"); continent_name (get (str "continent")) ].
(** ... without the city. *)
Definition uncity (v : list bytes) : list bytes := skipn 1 v.

(** An address is in some row (r, b) of the list whose values satisfy P. *)
Definition held (rows : list (IpRaw * block)) (a : N) (P : list bytes -> Prop) : Prop :=
  exists r b, In (r, b) rows /\ in_block b a /\ P (fvals r).

(** Values that survive the text format: no blank, dash or line end; not huge. *)
Definition clean (v : bytes) : Prop :=
  no_byte x20 v /\ no_byte x2d v /\ no_byte x0a v /\ no_byte x0d v /\ (N.of_nat (length v) < 10000)%N.

(** Datasets the format can hold: some rows, canonical networks, a value for every
    column.  Either the dataset is declared IPv4 and all its addresses are, or no row
    starts at an IPv4 address and only the last row may reach the last IPv6 address. *)
Record memable (d : IpData) (bs : list block) : Prop := {
  ma_rows : dIps d <> [];
  ma_nets : Forall2 (fun r b => net_is (cidr r) b /\ aligned b) (dIps d) bs;
  ma_values : Forall (fun r => length (fvals r) = length (dFields d) /\ Forall clean (fvals r)) (dIps d);
  ma_family :
    (vIpType (dVersion d) = 1%Z /\ forall b a, In b bs -> in_block b a -> is_v4 a) \/
    (vIpType (dVersion d) <> 1%Z /\ (forall b, In b bs -> ~ is_v4 (base b)) /\
     Forall (fun b => base b + 2 ^ logsz b < 2 ^ 128) (removelast bs)) }.

(** Specification vocabulary for the dataset operations (C24-C30, C48). *)
From Verif Require Export Spec Inf SpecIpdb.
From Verif Require Import Operate Tables.   (* Operate only for HData, slc, contents *)
Open Scope nat_scope.

(** Every row's slice lies inside an existing array. *)
Definition legal_slc (h : heap) (s : slc) : Prop :=
  sArr s < length h /\ sLen s <= length (arr h (sArr s)).
Definition legal (d : HData) : Prop := Forall (fun r => legal_slc (hHeap d) (snd r)) (hRows d).
(** Rows that share an array share the whole slice (as dumps and merges produce them). *)
Definition whole_sharing (d : HData) : Prop :=
  forall r r', In r (hRows d) -> In r' (hRows d) -> sArr (snd r) = sArr (snd r') -> sLen (snd r) = sLen (snd r').
(** No two rows share an array. *)
Definition no_sharing (d : HData) : Prop := NoDup (map (fun r => sArr (snd r)) (hRows d)).
(** A row's slice has no spare capacity. *)
Definition full (d : HData) (r : hrow) : Prop := sLen (snd r) = length (arr (hHeap d) (sArr (snd r))).
(** One value per field. *)
Definition rectangular (d : IpData) : Prop :=
  Forall (fun r => length (fvals r) = length (dFields d)) (dIps d).

(** Every network of the dataset is a canonical CIDR block. *)
Definition blocks (d : IpData) : Prop :=
  Forall (fun r => exists b, net_is (cidr r) b /\ aligned b) (dIps d).
(** Address a is covered by a row with these values. *)
Definition covered (d : IpData) (a : N) (v : list bytes) : Prop :=
  exists r b, In r (dIps d) /\ fvals r = v /\ net_is (cidr r) b /\ aligned b /\ in_block b a.

(** The dataset with the values of every row replaced; networks, fields and version kept. *)
Definition with_values (d : IpData) (f : IpRaw -> list bytes) : IpData :=
  mkData (dFields d) (dVersion d) (map (fun r => mkRaw (cidr r) (f r)) (dIps d)).

(** The shipped tables: one line "name TAB short name" per entry, for three fields. *)
Definition shipped_table (f : bytes) : option bytes :=
  if bytes_eqb f (str "city") then Some CityList
  else if bytes_eqb f (str "province") then Some ProvinceList
  else if bytes_eqb f (str "isp") then Some ISPList else None.
Definition has_line (text v w : bytes) : Prop := In (v ++ x09 :: w) (split x0a text).
(** w is the normalised value of v in a column called f. *)
Definition normal_name (f v w : bytes) : Prop :=
  match shipped_table f with
  | Some text => has_line text v w \/ (w = v /\ forall u, ~ has_line text v u)
  | None => w = v
  end.

(** The four main operators. *)
Definition main_operator (isp : bytes) : Prop :=
  In isp [str "电信"; str "联通"; str "移动"; str "铁通"].

(** The district of a province (empty when unknown). *)
Definition has_district (p x : bytes) : Prop :=
  In (p, x) provinceDistrict \/ (x = [] /\ forall y, ~ In (p, y) provinceDistrict).

(** The part of a line before the first slash. *)
Definition first_part (l p : bytes) : Prop :=
  no_byte x2f p /\ (l = p \/ exists rest, l = p ++ x2f :: rest).
(** The line written for a line value l of the line database. *)
Definition line_name (l x : bytes) : Prop :=
  exists p, first_part l p /\
    (p = [] /\ x = [] \/
     In p [str "电信"; str "联通"; str "移动"] /\ x = p \/
     p = str "铁通" /\ x = str "移动" \/
     ~ In p [[]; str "电信"; str "联通"; str "移动"; str "铁通"] /\ x = str "电信").
(** The line x that belongs to a row: only rows of China have one, taken from the
    answer of the line database for the network address. *)
Definition line_for (q : bytes -> res IpInfo) (pc : nat) (r : IpRaw) (x : bytes) : Prop :=
  if bytes_eqb (nth pc (fvals r) []) (str "中国") then
    match q (nIP (cidr r)) with
    | Ok i => line_name (iLine i) x
    | _ => x = []
    end
  else x = [].

(** The version v with one more source x noted in its extra information. *)
Definition with_source (v : VersionInfo) (x : bytes) : VersionInfo :=
  mkVersion (vIpType v) (vCount v) (vBuild v) (vVersion v) (vLanguages v) (vExtra v ++ [x]).
(** v with the value of column i replaced by x *)
Definition with_col (v : list bytes) (i : nat) (x : bytes) : list bytes :=
  firstn i v ++ x :: skipn (S i) v.

(** What TrimAsnIspDup may make of a row with values v, [rows] being the rows of
    the dataset and pi, pa the isp and the asn column: a row of another operator
    takes the name of a main operator that uses the same AS number in some row,
    all other rows stay. *)
Definition trimmed (rows : list IpRaw) (pi pa : nat) (v v' : list bytes) : Prop :=
  (~ main_operator (nth pi v []) /\
   exists r, In r rows /\ main_operator (nth pi (fvals r) []) /\ nth pa (fvals r) [] = nth pa v [] /\
             v' = with_col v pi (nth pi (fvals r) [])) \/
  ((main_operator (nth pi v []) \/
    forall r, In r rows -> main_operator (nth pi (fvals r) []) -> nth pa (fvals r) [] <> nth pa v []) /\
   v' = v).

(** f is the name of exactly one column, column i. *)
Definition only_column (f : bytes) (fields : list bytes) (i : nat) : Prop :=
  nth_error fields i = Some f /\ forall j, nth_error fields j = Some f -> j = i.

(** C61: version information in Go, Rust and Java; C62: queries by text in the three languages. *)
From Coq Require Import ZArith List Lia.
From Verif Require Import Base Date NetText NetTextProofs Inf Ipdb Json JsonProofs Foreign ForeignApi Facade.
From Verif Require Import Spec IpNetProofs SpecIpdb SpecForeign PackProofs OpenProofs PropsIpdb PropsForeign PropsForeign2 PropsAwQuery PropsFacade2 PropsJson.
Import ListNotations.
Open Scope Z_scope.

(* ------------------------------------------------------------------ *)
(** * The calendar *)

(** Specification: leap years, lengths of the months, the day after a day. *)
Definition leap_year (y : Z) : bool :=
  if y mod 400 =? 0 then true else if y mod 100 =? 0 then false else y mod 4 =? 0.
Definition month_length (y m : Z) : Z :=
  if m =? 2 then (if leap_year y then 29 else 28)
  else if (m =? 4) || (m =? 6) || (m =? 9) || (m =? 11) then 30 else 31.
Definition next_day (ymd : Z * Z * Z) : Z * Z * Z :=
  let ' (y, m, d) := ymd in
  if d <? month_length y m then (y, m, d + 1)
  else if m <? 12 then (y, m + 1, 1)
  else (y + 1, 1, 1).

Lemma isLeap_spec : forall y, isLeap y = leap_year y.
Proof.
  intros y. unfold isLeap, leap_year.
  destruct (Z.eqb_spec (y mod 400) 0), (Z.eqb_spec (y mod 100) 0), (Z.eqb_spec (y mod 4) 0); cbn; try reflexivity; exfalso; Z.to_euclidean_division_equations; lia.
Qed.
Definition ylen (y : Z) : Z := if isLeap y then 366 else 365.
Definition ystart (y : Z) : Z := 365 * (y - 1) + (y - 1) / 4 - (y - 1) / 100 + (y - 1) / 400.
Lemma ystart_next : forall y, ystart (y + 1) = ystart y + ylen y.
Proof.
  intros y. unfold ystart, ylen. rewrite isLeap_spec. unfold leap_year. replace (y + 1 - 1) with y by lia.
  destruct (Z.eqb_spec (y mod 400) 0), (Z.eqb_spec (y mod 100) 0), (Z.eqb_spec (y mod 4) 0); Z.to_euclidean_division_equations; lia.
Qed.
Lemma ystart_mono : forall k y, 0 <= k -> ystart y + 365 * k <= ystart (y + k).
Proof.
  intros k y H. pattern k. apply natlike_ind; [ replace (y + 0) with y by lia; lia | | exact H ].
  intros x X IH. replace (y + Z.succ x) with (y + x + 1) by lia. rewrite ystart_next.
  unfold ylen. destruct (isLeap (y + x)); lia.
Qed.
Lemma ystart_unique : forall y1 d1 y2 d2, ystart y1 + d1 = ystart y2 + d2 -> 0 <= d1 < ylen y1 -> 0 <= d2 < ylen y2 -> y1 = y2 /\ d1 = d2.
Proof.
  assert (forall y1 y2, y1 < y2 -> ystart y1 + ylen y1 <= ystart y2) as M.
  { intros y1 y2 L. rewrite <- ystart_next. pose proof (ystart_mono (y2 - (y1 + 1)) (y1 + 1) ltac:(lia)) as Q.
    replace (y1 + 1 + (y2 - (y1 + 1))) with y2 in Q by lia. lia. }
  intros y1 d1 y2 d2 E A B.
  destruct (Z.lt_total y1 y2) as [L | [-> | L]]; [ apply M in L; lia | split; [ reflexivity | lia ] | apply M in L; lia ].
Qed.
Lemma absYear_spec : forall day, let ' (y, yd) := absYear day in day = ystart y + yd /\ 0 <= yd < ylen y.
Proof.
  intros day. unfold absYear.
  set (e := day / 146097). set (d0 := day mod 146097).
  assert (day = 146097 * e + d0 /\ 0 <= d0 < 146097) as [E0 R0] by (subst e d0; Z.to_euclidean_division_equations; lia).
  clearbody e d0.
  set (c := d0 / 36524 - d0 / 36524 / 4).
  assert (0 <= c <= 3 /\ 0 <= d0 - 36524 * c /\ (c < 3 -> d0 - 36524 * c < 36524) /\ (d0 - 36524 * c <= 36524)) as (Rc & R1 & R1' & R1'').
  { subst c. Z.to_euclidean_division_equations; lia. }
  clearbody c. set (d1 := d0 - 36524 * c) in *. assert (d0 = 36524 * c + d1) by (subst d1; lia). clearbody d1.
  set (q := d1 / 1461). assert (0 <= q <= 24 /\ 0 <= d1 - 1461 * q < 1461) as [Rq R2] by (subst q; Z.to_euclidean_division_equations; lia).
  clearbody q. set (d2 := d1 - 1461 * q) in *. assert (d1 = 1461 * q + d2) by (subst d2; lia). clearbody d2.
  set (n := d2 / 365 - d2 / 365 / 4).
  assert (0 <= n <= 3 /\ 0 <= d2 - 365 * n /\ (n < 3 -> d2 - 365 * n < 365) /\ (d2 - 365 * n <= 365)) as (Rn & R3 & R3' & R3'').
  { subst n. Z.to_euclidean_division_equations; lia. }
  clearbody n. set (yd := d2 - 365 * n) in *. assert (d2 = 365 * n + yd) by (subst yd; lia). clearbody yd.
  set (y := 400 * e + 100 * c + 4 * q + n + 1).
  assert ((y - 1) / 4 = 100 * e + 25 * c + q) as D4 by (subst y; Z.to_euclidean_division_equations; lia).
  assert ((y - 1) / 100 = 4 * e + c) as D100 by (subst y; Z.to_euclidean_division_equations; lia).
  assert ((y - 1) / 400 = e) as D400 by (subst y; Z.to_euclidean_division_equations; lia).
  split; [ unfold ystart; rewrite D4, D100, D400; subst y; lia | ].
  split; [ lia | ]. unfold ylen. rewrite isLeap_spec. unfold leap_year.
  assert (y mod 4 = 0 <-> n = 3) as M4 by (subst y; Z.to_euclidean_division_equations; lia).
  assert (y mod 100 = 0 <-> n = 3 /\ q = 24) as M100 by (subst y; Z.to_euclidean_division_equations; lia).
  assert (y mod 400 = 0 <-> n = 3 /\ q = 24 /\ c = 3) as M400 by (subst y; Z.to_euclidean_division_equations; lia).
  destruct (Z.eqb_spec (y mod 400) 0), (Z.eqb_spec (y mod 100) 0), (Z.eqb_spec (y mod 4) 0); lia.
Qed.
Lemma absYear_next : forall day y yd, absYear day = (y, yd) ->
  absYear (day + 1) = (if yd + 1 <? ylen y then (y, yd + 1) else (y + 1, 0)) /\ 0 <= yd < ylen y.
Proof.
  intros day y yd E. pose proof (absYear_spec day) as A. rewrite E in A. destruct A as [A R].
  pose proof (absYear_spec (day + 1)) as B. destruct (absYear (day + 1)) as [y2 yd2]. destruct B as [B R2].
  split; [ | exact R ].
  destruct (Z.ltb_spec (yd + 1) (ylen y)).
  - destruct (ystart_unique y (yd + 1) y2 yd2); try lia. subst. reflexivity.
  - assert (ystart (y + 1) + 0 = ystart y2 + yd2) by (rewrite ystart_next; lia).
    assert (0 < ylen (y + 1)) by (unfold ylen; destruct (isLeap (y + 1)); lia).
    destruct (ystart_unique (y + 1) 0 y2 yd2); try lia. subst. reflexivity.
Qed.
Definition mlen (leap : bool) (m : Z) : Z :=
  if m =? 2 then (if leap then 29 else 28) else if (m =? 4) || (m =? 6) || (m =? 9) || (m =? 11) then 30 else 31.
Definition month_step (leap : bool) (yd : Z) : bool :=
  let ' (m, d) := absMonth leap yd in
  let len := if leap then 366 else 365 in
  (1 <=? m) && (m <=? 12) && (1 <=? d) && (d <=? mlen leap m) &&
  if (yd + 1 <? len)%Z then
    let ' (m2, d2) := absMonth leap (yd + 1) in
    if d <? mlen leap m then (m2 =? m) && (d2 =? d + 1) else (m <? 12) && (m2 =? m + 1) && (d2 =? 1)
  else (m =? 12) && (d =? 31).
Lemma month_steps : forall (leap : bool) yd, 0 <= yd < (if leap then 366 else 365) -> month_step leap yd = true.
Proof.
  intros leap yd R.
  assert (forallb (fun k => month_step leap (Z.of_nat k)) (seq 0 (if leap then 366 else 365)) = true) as F by (destruct leap; vm_compute; reflexivity).
  rewrite forallb_forall in F. specialize (F (Z.to_nat yd)). rewrite Z2Nat.id in F by lia. apply F.
  apply in_seq. destruct leap; lia.
Qed.

(** C61: the date of the build time counts the days of the Gregorian calendar from January 1, 1970,
    forwards and backwards. *)
Theorem C61_calendar : dateOf 0 = (1970, 1, 1) /\ forall n, dateOf (n + 1) = next_day (dateOf n).
Proof.
  split; [ reflexivity | ].
  intros n. unfold dateOf. replace (n + 1 + 719162) with (n + 719162 + 1) by lia.
  destruct (absYear (n + 719162)) as [y yd] eqn:E. destruct (absYear_next _ _ _ E) as [-> R].
  pose proof (month_steps (isLeap y) yd) as S. unfold ylen in *. specialize (S R).
  unfold month_step in S. destruct (absMonth (isLeap y) yd) as [m d] eqn:AM.
  repeat (apply andb_prop in S; destruct S as [S ?]).
  assert (mlen (isLeap y) m = month_length y m) as ML by (unfold mlen, month_length; rewrite isLeap_spec; reflexivity).
  cbn [next_day]. rewrite ML in *.
  destruct (yd + 1 <? (if isLeap y then 366 else 365)).
  - destruct (absMonth (isLeap y) (yd + 1)) as [m2 d2]. destruct (d <? month_length y m).
    + match goal with H : (_ && _)%bool = true |- _ => apply andb_prop in H; destruct H as [A B] end.
      apply Z.eqb_eq in A, B. subst. reflexivity.
    + match goal with H : (_ && _)%bool = true |- _ => apply andb_prop in H; destruct H as [A B]; apply andb_prop in A; destruct A as [A0 A] end.
      apply Z.eqb_eq in A, B. subst. rewrite A0. reflexivity.
  - match goal with H : (_ && _)%bool = true |- _ => apply andb_prop in H; destruct H as [A B] end.
    apply Z.eqb_eq in A, B. subst.
    unfold month_length. cbn [Z.eqb Pos.eqb orb]. cbn [Z.ltb Z.compare Pos.compare Pos.compare_cont].
    unfold absMonth. rewrite Bool.andb_comm. cbn [Z.eqb andb]. rewrite Bool.andb_comm. reflexivity.
Qed.
Print Assumptions C61_calendar.
Example C61_calendar_case : dateOf 19783 = (2024, 3, 1) /\ dateOf 19782 = (2024, 2, 29) /\ dateOf (-1) = (1969, 12, 31).
Proof. repeat split. Qed.

(* ------------------------------------------------------------------ *)
(** * Version information of a packed database *)

(** Specification: the version of a dataset as three readers show it.  The family is IPv4
    (1), IPv6 (2) or both (3, for any other number in the dataset); a missing version text is replaced. *)
Definition family (v : VersionInfo) : Z := if (vIpType v =? 1) || (vIpType v =? 2) then vIpType v else 3.
Definition shows (default : bytes) (now : Z) (d v : VersionInfo) : Prop :=
  vIpType v = family d /\ vBuild v = now /\ vExtra v = vExtra d /\ vLanguages v = [str "CN"] /\
  vVersion v = match vVersion d with [] => default | t => t end.
(** A day as text: the year, two digits for the month, two digits for the day. *)
Definition two (n : Z) : bytes := (if n <? 10 then str "0" else []) ++ dec (Z.to_N n).
Definition day_text (ymd : Z * Z * Z) : bytes :=
  let ' (y, m, d) := ymd in dec (Z.to_N y) ++ str "-" ++ two m ++ str "-" ++ two d.
(** The day that many seconds after midnight, January 1, 1970. *)
Definition day_of (seconds : Z) : Z * Z * Z := Nat.iter (Z.to_nat (seconds / 86400)) next_day (1970, 1, 1).

Lemma dateOf_day : forall n, dateOf (Z.of_nat n) = Nat.iter n next_day (1970, 1, 1).
Proof.
  induction n as [|n IH]; [reflexivity|]. rewrite Nat2Z.inj_succ. cbn [Nat.iter nat_rect].
  change (Z.succ (Z.of_nat n)) with (Z.of_nat n + 1). rewrite (proj2 C61_calendar), IH. reflexivity.
Qed.
Lemma day_range : forall n, let ' (y, m, d) := Nat.iter n next_day (1970, 1, 1) in 1970 <= y /\ 1 <= m <= 12 /\ 1 <= d <= 31.
Proof.
  induction n as [|n IH]; [cbn; lia|]. cbn [Nat.iter nat_rect]. change (nat_rect _ _ _ n) with (Nat.iter n next_day (1970, 1, 1)).
  destruct (Nat.iter n next_day (1970, 1, 1)) as [[y m] d]. cbn [next_day].
  assert (month_length y m <= 31) by (unfold month_length; destruct (m =? 2); [destruct (leap_year y); lia|destruct (_ || _)%bool; lia]).
  destruct (Z.ltb_spec d (month_length y m)); [lia|]. destruct (Z.ltb_spec m 12); lia.
Qed.
Lemma pad_two n : 1 <= n <= 31 -> padInt 2 n = two n.
Proof.
  intros H. assert (forallb (fun k => bytes_eqb (padInt 2 (Z.of_nat k)) (two (Z.of_nat k))) (seq 1 31) = true) as F by (vm_compute; reflexivity).
  rewrite forallb_forall in F. specialize (F (Z.to_nat n)). rewrite Z2Nat.id in F by lia.
  apply (PropsAwQuery.bytes_eqb_iff (padInt 2 n) (two n)). apply F, in_seq. lia.
Qed.
Lemma digits_ge : forall k fuel n, (10 ^ N.of_nat k <= n)%N -> (k < fuel)%nat -> (k < length (digits 10 fuel n))%nat.
Proof.
  induction k as [|k IH]; intros fuel n H F.
  - destruct fuel; [lia|]. cbn [digits]. destruct (n <? 10)%N; cbn [length]; [lia|]. rewrite app_length. cbn. lia.
  - destruct fuel; [lia|]. cbn [digits]. assert (10 ^ N.of_nat (S k) = 10 * 10 ^ N.of_nat k)%N as P by (rewrite Nat2N.inj_succ, N.pow_succ_r'; reflexivity).
    assert (1 <= 10 ^ N.of_nat k)%N by (pose proof (N.pow_nonzero 10 (N.of_nat k)); lia).
    destruct (N.ltb_spec n 10); [lia|]. rewrite app_length. cbn [length].
    assert (k < length (digits 10 fuel (n / 10)))%nat; [|lia]. apply IH; [|lia].
    apply N.div_le_lower_bound; lia.
Qed.
Lemma pad_year y : 1970 <= y -> padInt 4 y = dec (Z.to_N y).
Proof.
  intros H. unfold padInt. replace (y <? 0) with false by lia. rewrite Z.abs_eq by lia. cbn [app].
  assert (4 <= length (dec (Z.to_N y)))%nat as L.
  { unfold dec. rewrite map_length. apply (digits_ge 3); [change (10 ^ N.of_nat 3)%N with 1000%N; lia|].
    pose proof (N.size_log2 (Z.to_N y) ltac:(lia)) as S. assert (3 < N.size (Z.to_N y))%N.
    { rewrite S. assert (N.log2 1970 <= N.log2 (Z.to_N y))%N by (apply N.log2_le_mono; lia). change (N.log2 1970) with 10%N in *. lia. }
    assert (N.of_nat (N.size_nat (Z.to_N y)) = N.size (Z.to_N y)) by (destruct (Z.to_N y) as [|p]; [reflexivity|]; cbn; clear; induction p; cbn [Pos.size_nat Pos.size]; lia).
    lia. }
  replace (4 - length (dec (Z.to_N y)))%nat with O by lia. reflexivity.
Qed.
(** C61: the text is the day of the build time. *)
Theorem C61_date_text : forall build, 0 <= build -> dateText build = day_text (day_of build).
Proof.
  intros build H. unfold dateText, day_of. pose proof (Z.div_pos build 86400 H ltac:(lia)).
  rewrite <- (Z2Nat.id (build / 86400)) at 1 by assumption. rewrite dateOf_day.
  pose proof (day_range (Z.to_nat (build / 86400))) as R.
  destruct (Nat.iter (Z.to_nat (build / 86400)) next_day (1970, 1, 1)) as [[y m] d]. cbn [day_text].
  rewrite pad_year, !pad_two by lia. reflexivity.
Qed.
Print Assumptions C61_date_text.

Lemma open_all marshal unmarshal unmarshal_rs unmarshal_j lossy ips now ipd bs :
  Forall2 row_ok (dIps ipd) bs -> plain_columns (dFields ipd) -> dFields ipd <> [] -> json_ok marshal unmarshal now ipd ->
  json_ok32 marshal unmarshal_rs now ipd -> json_ok32 marshal unmarshal_j now ipd ->
  exists data, pack marshal now ipd = Ok data /\
    (Z.of_nat (length data) < 2 ^ 31 ->
     exists g r j n sz, newQuerier unmarshal data = Ok (g, []) /\ rs_new unmarshal_rs data = Ok r /\
       j_create unmarshal_j lossy ips data = Ok j /\ 0 <= n < 2 ^ 31 /\
       rMeta g = meta_of now ipd n sz /\ rsMeta r = meta_of now ipd n sz /\ jrMeta (fst j) = meta_of now ipd n sz).
Proof.
  intros HR HC HF HJ HJr HJj.
  destruct (pack_winv now ipd bs (rows_net _ _ HR) HC) as [w [P [E [W [M S]]]]].
  exists (Save marshal w). unfold pack. rewrite E. cbn [bind]. split; [reflexivity|]. intros Hsz.
  pose proof (body_small marshal w Hsz) as BS. pose proof (body_length w) as BL.
  destruct (rs_open marshal unmarshal_rs w P _ W Hsz) as [r [Or [Rm _]]]; [rewrite S; apply HJr; lia|].
  destruct (j_open marshal unmarshal_j w P _ W Hsz) as [j [Oj [Jm _]]]; [rewrite S; apply HJj; lia|].
  destruct (save_parts marshal w) as [Ls _].
  destruct (open_packed w P _ W ltac:(unfold OpenProofs.fits; lia) marshal unmarshal) as [g [Og [_ [Gm _]]]].
  { rewrite S. apply HJ; lia. }
  { rewrite M. discriminate. }
  { rewrite M. cbn [meta_of mFields]. intros X. apply map_eq_nil in X. contradiction. }
  { lia. }
  exists g, r, (j, if HasIPv4 (jrMeta j) then j_buildCache lossy j ips else None), (Z.of_nat (length (wNode w))), (Z.of_nat (length (body w))).
  split; [unfold newQuerier; rewrite Og; reflexivity|]. split; [exact Or|].
  split; [unfold j_create; rewrite Oj; reflexivity|]. split; [lia|].
  rewrite Gm, Rm. cbn [fst]. rewrite Jm, S. auto.
Qed.

(** C61: opened in any of the three languages the database shows the dataset's family, version text
    and extra information and the time it was packed.  A missing version text becomes "ipip.net-" and
    the day of the build in Go, "ipip.net-" and the number of seconds in Java, and stays empty in Rust. *)
Theorem C61_packed : forall marshal unmarshal unmarshal_rs unmarshal_j lossy ips now ipd bs,
  Forall2 row_ok (dIps ipd) bs -> plain_columns (dFields ipd) -> dFields ipd <> [] -> json_ok marshal unmarshal now ipd ->
  json_ok32 marshal unmarshal_rs now ipd -> json_ok32 marshal unmarshal_j now ipd -> 0 <= now ->
  exists data, pack marshal now ipd = Ok data /\
    (Z.of_nat (length data) < 2 ^ 31 ->
     exists g r j, newQuerier unmarshal data = Ok (g, []) /\ rs_new unmarshal_rs data = Ok r /\
       j_create unmarshal_j lossy ips data = Ok j /\
       shows (str "ipip.net-" ++ day_text (day_of now)) now (dVersion ipd) (version g) /\
       shows [] now (dVersion ipd) (rs_version true r) /\
       shows (str "ipip.net-" ++ dec (Z.to_N now)) now (dVersion ipd) (j_version (fst j)) /\
       vCount (rs_version true r) = vCount (version g) /\ vCount (j_version (fst j)) = vCount (version g) /\
       (forall v, In v [version g; rs_version true r; j_version (fst j)] ->
          (HasIpV4 v = true <-> vIpType (dVersion ipd) <> 2) /\ (HasIpV6 v = true <-> vIpType (dVersion ipd) <> 1) /\
          (IsIpV4 v = true <-> vIpType (dVersion ipd) = 1) /\ (IsIpV6 v = true <-> vIpType (dVersion ipd) = 2) /\
          (IsIpAll v = true <-> vIpType (dVersion ipd) <> 1 /\ vIpType (dVersion ipd) <> 2))).
Proof.
  intros marshal unmarshal unmarshal_rs unmarshal_j lossy ips now ipd bs HR HC HF HJ HJr HJj Hn.
  destruct (open_all marshal unmarshal unmarshal_rs unmarshal_j lossy ips now ipd bs HR HC HF HJ HJr HJj) as (data & E & O).
  exists data. split; [exact E|]. intros Hs. destruct (O Hs) as (g & r & j & n & sz & Og & Or & Oj & Rn & Gm & Rm & Jm).
  exists g, r, j. split; [exact Og|]. split; [exact Or|]. split; [exact Oj|].
  assert (IpType (meta_of now ipd n sz) = family (dVersion ipd) /\ Z.of_N (ipVersion (dVersion ipd)) = family (dVersion ipd)) as [F1 F2].
  { unfold IpType, family, meta_of, ipVersion. cbn [mIPVersion].
    destruct (Z.eqb_spec (vIpType (dVersion ipd)) 1) as [->|]; [split; reflexivity|].
    destruct (Z.eqb_spec (vIpType (dVersion ipd)) 2) as [->|]; split; reflexivity. }
  assert (dec_int now = dec (Z.to_N now)) as DI by (unfold dec_int; replace (now <? 0) with false by lia; reflexivity).
  assert (vIpType (version g) = family (dVersion ipd)) as T1 by (unfold version; cbn [vIpType]; rewrite Gm; exact F1).
  assert (vIpType (rs_version true r) = family (dVersion ipd)) as T2 by (unfold rs_version; cbn [vIpType]; rewrite Rm; exact F2).
  assert (vIpType (j_version (fst j)) = family (dVersion ipd)) as T3 by (unfold j_version; cbn [vIpType]; rewrite Jm; exact F2).
  split; [|split; [|split; [|split; [|split]]]].
  - split; [exact T1|]. unfold version. cbn [vBuild vExtra vLanguages vVersion]. rewrite Gm. cbn [meta_of mBuild mExtra mLanguages mVersion map fst].
    rewrite C61_date_text by exact Hn. repeat split.
  - split; [exact T2|]. unfold rs_version. cbn [vBuild vExtra vLanguages vVersion]. rewrite Rm. cbn [meta_of mBuild mExtra mLanguages mVersion].
    repeat split. destruct (vVersion (dVersion ipd)); reflexivity.
  - split; [exact T3|]. unfold j_version. cbn [vBuild vExtra vLanguages vVersion]. rewrite Jm. cbn [meta_of mBuild mExtra mLanguages mVersion].
    rewrite DI. repeat split.
  - unfold rs_version, version. cbn [vCount]. rewrite Gm, Rm. cbn [meta_of mNodeCount]. rewrite Z.mod_small by lia. reflexivity.
  - unfold j_version, version. cbn [vCount]. rewrite Gm, Jm. cbn [meta_of mNodeCount]. rewrite Z.mod_small by lia. reflexivity.
  - intros v I. assert (vIpType v = family (dVersion ipd)) as T by (destruct I as [<-|[<-|[<-|[]]]]; assumption).
    unfold HasIpV4, HasIpV6, IsIpV4, IsIpV6, IsIpAll. rewrite T. unfold family.
    destruct (Z.eqb_spec (vIpType (dVersion ipd)) 1) as [->|N1]; [cbn; intuition congruence|].
    destruct (Z.eqb_spec (vIpType (dVersion ipd)) 2) as [->|N2]; cbn; intuition congruence.
Qed.
Print Assumptions C61_packed.

(* ------------------------------------------------------------------ *)
(** * Queries by text *)

(** Address parsers of the Rust and Java libraries: they read the usual texts of addresses
    (four decimal numbers; for an IPv6 address that is not IPv4-mapped, groups of hexadecimal digits
    with the first longest run of zeros left out). *)
Definition reads4 (f : bytes -> option bytes) : Prop := forall ip, length ip = 4%nat -> f (ip_string ip) = Some ip.
Definition reads6 (f : bytes -> option bytes) : Prop := forall ip, length ip = 16%nat -> ~ is_v4 (addr ip) -> f (ip_string ip) = Some ip.
(** Four bytes, or sixteen that are not IPv4-mapped. *)
Definition plain_address (ip : bytes) : Prop := length ip = 4%nat \/ length ip = 16%nat /\ ~ is_v4 (addr ip).
Definition colon_first (s : bytes) : Prop := exists r, s = x3a :: r.

Lemma text4 ip : length ip = 4%nat -> ip_string ip = dotted ip.
Proof.
  intros L. unfold ip_string, to4. rewrite L. cbn [Nat.eqb]. destruct ip; [discriminate L|]. reflexivity.
Qed.
Lemma text6 ip : length ip = 16%nat -> ~ is_v4 (addr ip) -> ip_string ip = string6 ip.
Proof.
  intros L N. unfold ip_string. destruct (to4_spec ip (or_intror L)) as [T _].
  destruct (to4 ip) as [|c t] eqn:E; [cbn [is_nil negb]; rewrite L; reflexivity|].
  exfalso. apply N. destruct T as [T _]. specialize (T ltac:(discriminate)). unfold is_v4, v4base. lia.
Qed.
Lemma occurs_in c s : occurs c s = true <-> In c s.
Proof.
  induction s as [|x s IH]; cbn [occurs In]; [intuition discriminate|].
  rewrite orb_true_iff, IH. destruct (byte_eqb_spec x c) as [->|N]; intuition congruence.
Qed.
Lemma special_in s c : first_special s = Some c -> In c s.
Proof.
  induction s as [|x s IH]; cbn [first_special]; [discriminate|]. destruct (_ || _)%bool; [intros [= ->]; now left|right; auto].
Qed.
Lemma hex_colon c : unhex c <> None -> c <> x3a.
Proof. intros H ->. apply H. reflexivity. Qed.
Lemma dec_colon c : undec c <> None -> c <> x3a /\ c <> x2e.
Proof. intros H. split; intros ->; apply H; reflexivity. Qed.
Lemma hexgroups_hd ws : ws <> [] -> exists c r, hexgroups ws = c :: r /\ c <> x3a.
Proof.
  destruct ws as [|w ws]; [congruence|]. intros _. unfold hexgroups. cbn [map].
  destruct (hex w) as [|c r] eqn:E; [destruct (hex_ne w E)|].
  assert (c <> x3a) as C by (apply hex_colon, (hex_chars w); rewrite E; now left).
  destruct (map hex ws) as [|y l]; [exists c, r; auto|]. exists c, (r ++ x3a :: join x3a (y :: l)). split; [|exact C].
  rewrite join_cons by discriminate. reflexivity.
Qed.
Lemma longest_run_late ws : forall fuel i e0 e1, (1 <= i)%nat -> (1 <= e0 \/ e1 - e0 <= 1)%nat ->
  let ' (f0, f1) := longest_run fuel i ws e0 e1 in (1 <= f0 \/ f1 - f0 <= 1)%nat.
Proof.
  induction fuel as [|k IH]; intros i e0 e1 I H; [exact H|]. cbn [longest_run].
  destruct (e1 - e0 <? NetText.zeros (skipn i ws))%nat; apply IH; lia.
Qed.
Lemma longest_run_step k i ws e0 e1 : longest_run (S k) i ws e0 e1 =
  if (e1 - e0 <? NetText.zeros (skipn i ws))%nat then longest_run k (S (i + NetText.zeros (skipn i ws))) ws i (i + NetText.zeros (skipn i ws))
  else longest_run k (S i) ws e0 e1.
Proof. reflexivity. Qed.
Lemma zeros_le ws : (NetText.zeros ws <= length ws)%nat.
Proof. induction ws as [|w ws IH]; cbn [NetText.zeros length]; [lia|]. destruct (w =? 0)%N; lia. Qed.
Lemma longest_run_keeps ws : forall fuel i e0 e1, (length ws - i <= e1 - e0)%nat -> longest_run fuel i ws e0 e1 = (e0, e1).
Proof.
  induction fuel as [|k IH]; intros i e0 e1 H; [reflexivity|]. rewrite longest_run_step.
  pose proof (zeros_le (skipn i ws)) as Z. rewrite skipn_length in Z.
  replace (e1 - e0 <? NetText.zeros (skipn i ws))%nat with false by lia. apply IH. lia.
Qed.
Definition text_of_groups (ws : list N) : bytes :=
  let '(e0, e1) := longest_run 8 0 ws 0 0 in
  if (e1 - e0 <=? 1)%nat then hexgroups ws else hexgroups (firstn e0 ws) ++ [x3a; x3a] ++ hexgroups (skipn e1 ws).
Lemma groups_colon w0 w1 gs : colon_first (text_of_groups (w0 :: w1 :: gs)) -> w0 = 0%N /\ w1 = 0%N.
Proof.
  intros [r C].
  assert (exists fuel i e1, (1 <= i)%nat /\ (e1 <= 1)%nat /\ longest_run 8 0 (w0 :: w1 :: gs) 0 0 = longest_run fuel i (w0 :: w1 :: gs) 0 e1 \/ w0 = 0%N /\ w1 = 0%N) as (fuel & i & e1 & [(Hi & He & R)|H]); [| |exact H].
  { clear C. destruct (N.eq_dec w0 0) as [E0|E0]; [destruct (N.eq_dec w1 0) as [E1|E1]|].
    - exists O, O, O. right. auto.
    - exists 7%nat, 2%nat, 1%nat. left. split; [lia|]. split; [lia|]. rewrite longest_run_step. cbn [skipn].
      assert (NetText.zeros (w0 :: w1 :: gs) = 1%nat) as ->.
      { cbn [NetText.zeros]. rewrite (proj2 (N.eqb_eq w0 0) E0), (proj2 (N.eqb_neq w1 0) E1). reflexivity. }
      cbn [Nat.sub Nat.ltb Nat.leb Nat.add]. reflexivity.
    - exists 7%nat, 1%nat, 0%nat. left. split; [lia|]. split; [lia|]. rewrite longest_run_step. cbn [skipn].
      assert (NetText.zeros (w0 :: w1 :: gs) = 0%nat) as ->.
      { cbn [NetText.zeros]. rewrite (proj2 (N.eqb_neq w0 0) E0). reflexivity. }
      cbn [Nat.sub Nat.ltb Nat.leb Nat.add]. reflexivity. }
  exfalso. unfold text_of_groups in C. rewrite R in C. clear R.
  pose proof (longest_run_late (w0 :: w1 :: gs) fuel i 0 e1 Hi ltac:(lia)) as Q.
  destruct (longest_run fuel i (w0 :: w1 :: gs) 0 e1) as [f0 f1]. destruct (Nat.leb_spec (f1 - f0) 1).
  - destruct (hexgroups_hd (w0 :: w1 :: gs) ltac:(discriminate)) as (c & t & H1 & H2). rewrite H1 in C. congruence.
  - destruct f0; [lia|]. cbn [firstn] in C. match type of C with hexgroups ?l ++ _ = _ => destruct (hexgroups_hd l ltac:(discriminate)) as (c & t & H1 & H2) end.
    rewrite H1 in C. cbn [app] in C. congruence.
Qed.
Lemma string6_groups ip : string6 ip = text_of_groups (groups ip).
Proof. reflexivity. Qed.
Lemma string6_colon ip : length ip = 16%nat -> colon_first (string6 ip) -> exists r, ip = x00 :: x00 :: x00 :: x00 :: r.
Proof.
  intros L C.
  do 4 (destruct ip as [|? ip]; [discriminate L|]). rename b into a0, b0 into a1, b1 into a2, b2 into a3.
  assert (forall a b, (b2n a * 256 + b2n b = 0)%N -> a = x00 /\ b = x00) as Z.
  { intros a b H. split; apply b2n_inj; change (b2n x00) with 0%N; lia. }
  rewrite string6_groups in C. cbn [groups] in C. destruct (groups_colon _ _ _ C) as [E0 E1].
  destruct (Z _ _ E0) as [-> ->], (Z _ _ E1) as [-> ->]. eauto.
Qed.
Lemma string6_zeros ip : length ip = 16%nat -> (addr ip < 2 ^ 64)%N -> colon_first (string6 ip).
Proof.
  intros L A. rewrite addr_16 in A by exact L. rewrite <- (firstn_skipn 8 ip), val_app, skipn_length, L in A.
  change (8 * N.of_nat (16 - 8))%N with 64%N in A.
  assert (val (firstn 8 ip) = 0)%N as V by (destruct (N.eq_dec (val (firstn 8 ip)) 0); [assumption|nia]).
  assert (firstn 8 ip = repeat x00 8) as F by (apply val_inj; [rewrite firstn_length, L; reflexivity|rewrite V; reflexivity]).
  rewrite <- (firstn_skipn 8 ip), F. set (t := skipn 8 ip).
  assert (length t = 8%nat) as Lt by (unfold t; rewrite skipn_length, L; reflexivity). clearbody t.
  do 8 (destruct t as [|? t]; [discriminate Lt|]). destruct t; [|discriminate Lt].
  unfold string6. cbn [repeat app groups].
  change (b2n x00 * 256 + b2n x00)%N with 0%N.
  generalize (b2n b * 256 + b2n b0)%N (b2n b1 * 256 + b2n b2)%N (b2n b3 * 256 + b2n b4)%N (b2n b5 * 256 + b2n b6)%N. intros g1 g2 g3 g4.
  assert (exists e1, longest_run 8 0 [0; 0; 0; 0; g1; g2; g3; g4]%N 0 0 = (O, e1) /\ (2 <= e1)%nat) as (e1 & -> & H).
  { set (ws := [0; 0; 0; 0; g1; g2; g3; g4]%N). assert (4 <= NetText.zeros ws)%nat as Z by (cbn [ws NetText.zeros N.eqb]; lia).
    rewrite longest_run_step. cbn [skipn]. replace (0 - 0 <? NetText.zeros ws)%nat with true by lia. cbn [Nat.add].
    exists (NetText.zeros ws). split; [|lia]. apply longest_run_keeps. change (length ws) with 8%nat. lia. }
  replace (e1 - 0 <=? 1)%nat with false by lia. cbn [firstn]. eexists. reflexivity.
Qed.

(** C62: the Rust reader asked for the usual text of an address answers as for its bytes; a text that is not an
    address is an error. *)
Theorem C62_rust : forall parse lossy r, reads4 parse -> reads6 parse ->
  (forall ip, plain_address ip -> rs_query_str parse lossy r (ip_string ip) = rs_query lossy r ip) /\
  (forall s, parse s = None -> exists e, rs_query_str parse lossy r s = Err e).
Proof.
  intros parse lossy r R4 R6. split.
  - intros ip [L|[L N]]; unfold rs_query_str; [rewrite R4 by exact L|rewrite R6 by assumption]; reflexivity.
  - intros s E. unfold rs_query_str. rewrite E. eauto.
Qed.
Print Assumptions C62_rust.

(** C62: so does the Java reader, except that it refuses every text that starts with a colon. *)
Theorem C62_java : forall v4 v6 lossy q, reads4 v4 -> reads6 v6 ->
  (forall ip, plain_address ip -> ~ colon_first (ip_string ip) -> j_query_str v4 v6 lossy q (ip_string ip) = j_query lossy q ip) /\
  (forall s, colon_first s -> v4 s = None -> j_query_str v4 v6 lossy q s = Err ErrIPFormat) /\
  (forall ip, plain_address ip -> colon_first (ip_string ip) -> j_query_str v4 v6 lossy q (ip_string ip) = Err ErrIPFormat) /\
  j_query_str v4 v6 lossy q [] = Err ErrIPFormat.
Proof.
  intros v4 v6 lossy q R4 R6.
  assert (forall ip, length ip = 4%nat -> exists c r, ip_string ip = c :: r /\ c <> x3a /\ c <> x2e /\ In x2e r /\ ~ In x3a r) as T4.
  { intros ip L. rewrite text4 by exact L. pose proof (dotted_chars ip) as D.
    do 4 (destruct ip as [|? ip]; [discriminate L|]). destruct ip; [|discriminate L].
    unfold dotted in *. cbn [map join] in *. destruct (dec (b2n b)) as [|c r] eqn:E; [destruct (dec_ne _ E)|].
    cbn [app] in *. eexists c, _. split; [reflexivity|].
    destruct (dec_colon c) as [C1 C2]; [apply (dec_chars (b2n b)); rewrite E; now left|].
    split; [exact C1|]. split; [exact C2|]. split; [apply in_or_app; right; now left|].
    intros I. destruct (D x3a (or_intror I)) as [X|X]; [discriminate X|apply X; reflexivity]. }
  assert (forall ip, length ip = 16%nat -> ~ is_v4 (addr ip) -> In x3a (ip_string ip) /\ ~ In x2e (ip_string ip)) as T6.
  { intros ip L N. rewrite text6 by assumption. split; [apply special_in, string6_special, L|].
    intros I. destruct (string6_chars ip x2e I) as [X|X]; [discriminate X|apply X; reflexivity]. }
  split; [|split; [|split]].
  - intros ip P C. unfold j_query_str. destruct P as [L|[L N]].
    + destruct (T4 ip L) as (c & r & E & C1 & C2 & I & NI). rewrite (R4 ip L), E. cbn [is_nil index_positive].
      destruct (byte_eqb_spec c x3a); [contradiction|]. destruct (byte_eqb_spec c x2e); [contradiction|].
      replace (occurs x3a r) with false by (symmetry; apply not_true_iff_false; rewrite occurs_in; exact NI).
      rewrite (proj2 (occurs_in x2e r) I). reflexivity.
    + destruct (T6 ip L N) as [I _]. rewrite (R6 ip L N). destruct (ip_string ip) as [|c r]; [destruct I|]. cbn [is_nil index_positive].
      destruct (byte_eqb_spec c x3a) as [->|D]; [destruct C; eexists; reflexivity|].
      destruct I as [I|I]; [contradiction|]. rewrite (proj2 (occurs_in x3a r) I). reflexivity.
  - intros s [r ->] E. unfold j_query_str. rewrite E. cbn [is_nil index_positive byte_eqb].
    destruct (byte_eqb_spec x3a x3a) as [_|X]; [|congruence]. cbn [negb andb]. destruct (_ && _)%bool; reflexivity.
  - intros ip P C. destruct P as [L|[L N]].
    + destruct (T4 ip L) as (c & r & E & C1 & _). destruct C as [t C]. congruence.
    + destruct (T6 ip L N) as [_ NI]. destruct C as [t C]. rewrite C in *. unfold j_query_str. cbn [is_nil index_positive].
      destruct (byte_eqb_spec x3a x3a) as [_|X]; [|congruence]. destruct (byte_eqb_spec x3a x2e) as [X|_]; [discriminate X|]. cbn [negb andb].
      replace (occurs x2e t) with false by (symmetry; apply not_true_iff_false; rewrite occurs_in; intros I; apply NI; now right). reflexivity.
  - reflexivity.
Qed.
Print Assumptions C62_java.
(** C62: which addresses those are: all IPv6 addresses below 2^64 (::1, ::, ...), none from 2^96 on. *)
Theorem C62_java_refuses : forall ip, length ip = 16%nat -> ~ is_v4 (addr ip) ->
  ((addr ip < 2 ^ 64)%N -> colon_first (ip_string ip)) /\ (colon_first (ip_string ip) -> (addr ip < 2 ^ 96)%N).
Proof.
  intros ip L N. rewrite text6 by assumption. split; [apply string6_zeros, L|].
  intros C. destruct (string6_colon ip L C) as [r ->]. rewrite addr_16 by exact L.
  change (x00 :: x00 :: x00 :: x00 :: r) with ([x00; x00; x00; x00] ++ r). rewrite val_app.
  change (val [x00; x00; x00; x00]) with 0%N. pose proof (val_bound r) as B. assert (length r = 12%nat) as Lr by (cbn in L; lia).
  rewrite Lr in B. change (8 * N.of_nat 12)%N with 96%N in B. lia.
Qed.
Print Assumptions C62_java_refuses.

(** C62: the same text asked in the three languages, for an address some row (with one value per column)
    covers: Rust shows what Go shows, continent apart; Java too (null for a missing column; line and
    continent are in C44), unless the text starts with a colon. *)
Theorem C62_same_text : forall marshal unmarshal unmarshal_rs unmarshal_j lossy parse v4 v6 now ipd bs ips,
  Forall2 row_ok (dIps ipd) bs -> plain_columns (dFields ipd) -> dFields ipd <> [] -> json_ok marshal unmarshal now ipd ->
  json_ok32 marshal unmarshal_rs now ipd -> json_ok32 marshal unmarshal_j now ipd -> decodes lossy ->
  Forall (fun r => Forall utf8 (fvals r)) (dIps ipd) -> reads4 parse -> reads6 parse -> reads4 v4 -> reads6 v6 ->
  exists data, pack marshal now ipd = Ok data /\
    (Z.of_nat (length data) < 2 ^ 31 ->
     exists g r j, newQuerier unmarshal data = Ok (g, []) /\ rs_new unmarshal_rs data = Ok r /\ j_create unmarshal_j lossy ips data = Ok j /\
       forall ip b row, plain_address ip -> takes (vIpType (dVersion ipd)) ip -> holds_family (vIpType (dVersion ipd)) (addr ip) = true ->
         lookup (store_all (combine bs (map fvals (dIps ipd)))) (addr ip) = Some (b, row) -> length row = length (dFields ipd) ->
         exists i x, QueryStr (QIpdb g []) (ip_string ip) = Ok (Some i, prefix_len (addr ip) b, None) /\
           rs_query_str parse lossy r (ip_string ip) = Ok x /\ same_but_continent x i /\
           (colon_first (ip_string ip) -> j_query_str v4 v6 lossy j (ip_string ip) = Err ErrIPFormat) /\
           (~ colon_first (ip_string ip) -> exists y, j_query_str v4 v6 lossy j (ip_string ip) = Ok y /\
              same_or_null [str "country"; str "country_name"] (dFields ipd) (jCountry y) (iCountry i) /\
              same_or_null [str "province"; str "region_name"] (dFields ipd) (jProvince y) (iProvince i) /\
              same_or_null [str "city"; str "city_name"] (dFields ipd) (jCity y) (iCity i) /\
              same_or_null [str "isp"; str "isp_domain"] (dFields ipd) (jIsp y) (iIsp i) /\
              same_or_null [str "asn"] (dFields ipd) (jAsn y) (iAsn i) /\
              same_or_null [str "district"] (dFields ipd) (jDistrict y) (iDistrict i))).
Proof.
  intros marshal unmarshal unmarshal_rs unmarshal_j lossy parse v4 v6 now ipd bs ips HR HC HF HJ HJr HJj HD HU P4 P6 J4 J6.
  destruct (C43_rust_agrees marshal unmarshal unmarshal_rs lossy now ipd bs HR HC HF HJ HJr HD HU) as (data & E & A).
  destruct (C44_java_agrees marshal unmarshal unmarshal_j lossy now ipd bs ips HR HC HF HJ HJj HD HU) as (data' & E' & B).
  rewrite E in E'. assert (data' = data) as -> by congruence. exists data. split; [exact E|]. intros Hs.
  destruct (A Hs) as (g & r & Og & Or & A'). destruct (B Hs) as (g' & j & Og' & Oj & B').
  rewrite Og in Og'. assert (g' = g) as -> by congruence.
  exists g, r, j. split; [exact Og|]. split; [exact Or|]. split; [exact Oj|].
  intros ip b row P T F L Len.
  destruct (A' ip b row T F L ltac:(lia)) as (i & x & Qg & Qr & S & _).
  destruct (B' ip b row T F L Len) as (i' & y & Qg' & Qj & S1 & S2 & S3 & S4 & S5 & S6 & _).
  rewrite Qg in Qg'. assert (i' = i) as -> by congruence.
  exists i, x.
  assert (valid_ip ip) as V by (destruct P as [P|[P _]]; [left|right]; exact P).
  split. { rewrite C47_str by exact V. unfold DbQuery, q_query. rewrite Qg. reflexivity. }
  split. { rewrite (proj1 (C62_rust parse lossy r P4 P6) ip P). exact Qr. }
  split; [exact S|]. destruct (C62_java v4 v6 lossy j J4 J6) as (J1 & _ & J2 & _).
  split; [intros C; apply J2; assumption|].
  intros C. exists y. rewrite J1 by assumption. auto 10.
Qed.
Print Assumptions C62_same_text.

(* ------------------------------------------------------------------ *)
(** A case: both families, no version text; net.ParseIP as the parser of the other languages. *)
Definition case_parse (s : bytes) : option bytes :=
  match ParseIP s with Some ip => Some (if is_nil (to4 ip) then ip else to4 ip) | None => None end.
Lemma case_parse_ok : reads4 case_parse /\ reads6 case_parse.
Proof.
  split.
  - intros ip L. unfold case_parse. rewrite ParseIP_string by (left; exact L).
    unfold to16. rewrite L. cbn [Nat.eqb]. do 4 (destruct ip as [|? ip]; [discriminate L|]). destruct ip; [|discriminate L]. reflexivity.
  - intros ip L N. unfold case_parse. rewrite ParseIP_string by (right; exact L). rewrite to16_id by exact L.
    destruct (to4_spec ip (or_intror L)) as [T _]. destruct (to4 ip) as [|c t]; [reflexivity|].
    exfalso. apply N. destruct T as [T _]. specialize (T ltac:(discriminate)). unfold is_v4, v4base. lia.
Qed.
Definition ver_ipd : IpData := mkData [str "country"; str "city"] (mkVersion 3 0 0 [] [] [])
  [ mkRaw (mkNet [x01; x00; x00; x00] [xff; x00; x00; x00]) [str "CN"; str "A"];
    mkRaw (mkNet (x20 :: repeat x00 15) (xe0 :: repeat x00 15)) [str "DE"; str "B"];
    mkRaw (mkNet (repeat x00 16) (repeat xff 14 ++ repeat x00 2)) [str "ZZ"; str "C"] ].
Definition ver_blocks : list block := [mkBlock (v4base + 2 ^ 24)%N 24; mkBlock (0x20 * 2 ^ 120)%N 125; mkBlock 0 16].
Example C61_case : exists data g r j,
  pack (marshal_meta true true) 1709251200 ver_ipd = Ok data /\ newQuerier unmarshal_meta data = Ok (g, []) /\
  rs_new unmarshal_meta data = Ok r /\ j_create unmarshal_meta (fun s => s) [] data = Ok j /\
  vVersion (version g) = str "ipip.net-2024-03-01" /\ vVersion (rs_version true r) = [] /\
  vVersion (j_version (fst j)) = str "ipip.net-1709251200" /\ HasIpV4 (version g) = true /\ HasIpV6 (version g) = true /\
  QueryStr (QIpdb g []) (str "2001:db8::1") = Ok (Some (mkInfo (str "DE") [] [] (str "B") [] [] [] []), 3%nat, None) /\
  rs_query_str case_parse (fun s => s) r (str "2001:db8::1") = Ok (mkInfo (str "DE") [] [] (str "B") [] [] [] []) /\
  j_query_str case_parse case_parse (fun s => s) j (str "2001:db8::1") = Ok (mkJInfo (Some (str "DE")) None None (Some (str "B")) None None None None) /\
  QueryStr (QIpdb g []) (str "::1") = Ok (Some (mkInfo (str "ZZ") [] [] (str "C") [] [] [] []), 112%nat, None) /\
  j_query_str case_parse case_parse (fun s => s) j (str "::1") = Err ErrIPFormat.
Proof.
  assert (Forall2 row_ok (dIps ver_ipd) ver_blocks) as HR by (constructor; [row_ok_solve|]; constructor; [row_ok_solve|]; constructor; [row_ok_solve|]; constructor).
  assert (plain_columns (dFields ver_ipd)) as HC by (intros f [<-|[<-|[]]] N H; try (apply N; reflexivity); vm_compute in H; discriminate H).
  assert (utf8_names ver_ipd) as UN by (constructor; cbn [ver_ipd dFields dVersion vVersion vExtra]; [repeat (constructor; [ascii|]); constructor|ascii|constructor]).
  destruct (C54_json_ok true true 1709251200 ver_ipd UN ltac:(unfold int64; cbn; lia)) as [J1 J2].
  assert (Forall (fun r => Forall utf8 (fvals r)) (dIps ver_ipd)) as HU.
  { cbn [ver_ipd dIps]. repeat (constructor; [cbn [fvals]; repeat (constructor; [ascii|]); constructor|]). constructor. }
  destruct case_parse_ok as [P4 P6].
  assert (decodes (fun s => s)) as HD by (intros s _; reflexivity).
  destruct (C61_packed _ _ _ _ (fun s => s) [] _ _ _ HR HC ltac:(discriminate) J1 J2 J2 ltac:(lia)) as (data & E & A).
  destruct (C43_rust_answers _ _ _ _ _ _ HR HC J2 HD HU) as (d2 & E2 & B). rewrite E in E2. assert (d2 = data) as -> by congruence.
  destruct (C44_java_answers _ _ _ _ _ _ [] HR HC ltac:(discriminate) J2 HD HU) as (d3 & E3 & C). rewrite E in E3. assert (d3 = data) as -> by congruence.
  destruct (C12_pack_query _ _ _ _ _ HR HC ltac:(discriminate) J1) as (d4 & E4 & D). rewrite E in E4. assert (d4 = data) as -> by congruence.
  assert (Z.of_nat (length data) < 2 ^ 31) as Hs.
  { assert (match pack (marshal_meta true true) 1709251200 ver_ipd with Ok x => (length x <? 5000)%nat | _ => false end = true) as X by (vm_compute; reflexivity).
    rewrite E in X. lia. }
  destruct (A Hs) as (g & r & j & Og & Or & Oj & (S1 & S2 & S3 & S4 & S5) & (R1 & R2 & R3 & R4 & R5) & (K1 & K2 & K3 & K4 & K5) & _ & _ & H).
  destruct (B Hs) as (r' & Or' & B'). assert (r' = r) as -> by congruence.
  destruct (C Hs) as (j' & Oj' & C'). assert (j' = j) as -> by congruence.
  destruct (D ltac:(lia)) as (g' & Og' & D'). assert (g' = g) as -> by congruence.
  exists data, g, r, j. split; [exact E|]. split; [exact Og|]. split; [exact Or|]. split; [exact Oj|].
  rewrite S5, R5, K5, <- C61_date_text by lia.
  split; [vm_compute; reflexivity|]. split; [reflexivity|]. split; [vm_compute; reflexivity|].
  destruct (H (version g) (or_introl eq_refl)) as (V1 & V2 & _).
  split; [apply V1; discriminate|]. split; [apply V2; discriminate|].
  set (ip := [x20; x01; x0d; xb8] ++ repeat x00 11 ++ [x01]). set (lo := repeat x00 15 ++ [x01]).
  assert (str "2001:db8::1" = ip_string ip) as -> by (vm_compute; reflexivity).
  assert (str "::1" = ip_string lo) as T1 by (vm_compute; reflexivity).
  assert (plain_address ip) as Pi by (right; split; [reflexivity|intros [X Y]; vm_compute in X, Y; discriminate Y]).
  split. { rewrite C47_str by (right; reflexivity). unfold DbQuery, q_query. rewrite (D' ip (or_intror eq_refl)). vm_compute. reflexivity. }
  split. { rewrite (proj1 (C62_rust case_parse (fun s => s) r P4 P6) ip Pi). specialize (B' ip ltac:(right; split; [reflexivity|discriminate])).
           match type of B' with match ?l with _ => _ end => assert (l = Some (mkBlock (0x20 * 2 ^ 120)%N 125, [str "DE"; str "B"])) as X by (vm_compute; reflexivity); rewrite X in B' end.
           rewrite B'. vm_compute. reflexivity. }
  split. { rewrite (proj1 (C62_java case_parse case_parse (fun s => s) j P4 P6) ip Pi).
           - specialize (C' ip ltac:(right; split; [reflexivity|discriminate])).
             match type of C' with match ?l with _ => _ end => assert (l = Some (mkBlock (0x20 * 2 ^ 120)%N 125, [str "DE"; str "B"])) as X by (vm_compute; reflexivity); rewrite X in C' end.
             rewrite C'. vm_compute. reflexivity.
           - intros [t X]. vm_compute in X. discriminate X. }
  split. { rewrite T1, C47_str by (right; reflexivity). unfold DbQuery, q_query. rewrite (D' lo (or_intror eq_refl)). vm_compute. reflexivity. }
  rewrite T1. apply (proj1 (proj2 (proj2 (C62_java case_parse case_parse (fun s => s) j P4 P6)))); [|eexists; rewrite <- T1; reflexivity].
  right; split; [reflexivity|intros [X Y]; vm_compute in X; apply X; reflexivity].
Qed.

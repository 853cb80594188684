(** Property theorems C74: opening a database by file name in Go, Rust and Java. *)
From Coq Require Import ZArith List Lia.
From Verif Require Import Base Date NetText NetTextProofs Inf Ipdb Json JsonProofs Foreign ForeignApi Facade ForeignFile.
From Verif Require Import Spec IpNetProofs SpecIpdb SpecForeign PackProofs OpenProofs PropsIpdb PropsForeign PropsForeign2 PropsAwQuery PropsFacade2 PropsFacade3 PropsConvert PropsJson PropsVersion.
Import ListNotations.
Open Scope nat_scope.

(* ---------- extensions ---------- *)
(** The name ends in the text [e]. *)
Definition ends_in (e f : bytes) : Prop := exists stem, f = stem ++ e.

Lemma j_ext_none s : j_ext s = None <-> no_byte x2e s.
Proof.
  unfold no_byte. induction s as [|c s IH]; cbn [j_ext In]; [tauto|].
  destruct (j_ext s) as [e|].
  - split; [discriminate|]. intros H. exfalso. assert (Some e = None) as Q by (apply IH; tauto). discriminate Q.
  - destruct (byte_eqb_spec c x2e) as [->|N]; [split; [discriminate|tauto]|]. split; [|reflexivity]. intros _ [Q|Q]; [congruence|]. apply IH in Q; [assumption|reflexivity].
Qed.
Lemma j_ext_some s e : j_ext s = Some e -> exists stem r, s = stem ++ e /\ e = x2e :: r /\ no_byte x2e r.
Proof.
  revert e. induction s as [|c s IH]; intros e H; cbn [j_ext] in H; [discriminate|].
  destruct (j_ext s) as [e'|] eqn:Q.
  - injection H as ->. destruct (IH _ eq_refl) as (stem & r & -> & E & N). exists (c :: stem), r. auto.
  - destruct (byte_eqb_spec c x2e) as [->|]; [|discriminate]. injection H as <-. exists [], s. split; [reflexivity|]. split; [reflexivity|].
    apply j_ext_none. assumption.
Qed.
Lemma j_ext_app stem r : no_byte x2e r -> j_ext (stem ++ x2e :: r) = Some (x2e :: r).
Proof.
  intros N. induction stem as [|c stem IH]; cbn [app j_ext].
  - rewrite (proj2 (j_ext_none r) N). reflexivity.
  - rewrite IH. reflexivity.
Qed.
Lemma ext_loop_app e : forall acc r, no_byte x2e e -> no_byte x2f e -> ext_loop (rev e ++ x2e :: r) acc = x2e :: e ++ acc.
Proof.
  induction e as [|c e IH] using rev_ind; intros acc r N1 N2; [reflexivity|].
  rewrite rev_app_distr. cbn [rev app ext_loop].
  destruct (byte_eqb_spec c x2f) as [->|_]; [exfalso; apply N2; apply in_or_app; right; left; reflexivity|].
  destruct (byte_eqb_spec c x2e) as [->|_]; [exfalso; apply N1; apply in_or_app; right; left; reflexivity|].
  rewrite IH.
  - rewrite <- app_assoc. reflexivity.
  - intros I. apply N1. apply in_or_app. left. assumption.
  - intros I. apply N2. apply in_or_app. left. assumption.
Qed.
Lemma ext_loop_some : forall l acc e, ext_loop l acc = e -> e = [] \/ exists m r, l = m ++ x2e :: r /\ e = x2e :: rev m ++ acc.
Proof.
  induction l as [|c l IH]; intros acc e H; cbn [ext_loop] in H; [left; congruence|].
  destruct (byte_eqb_spec c x2f) as [->|_]; [left; congruence|].
  destruct (byte_eqb_spec c x2e) as [->|_]; [right; exists [], l; split; [reflexivity|symmetry; exact H]|].
  destruct (IH _ _ H) as [->|(m & r & -> & ->)]; [left; reflexivity|]. right. exists (c :: m), r. split; [reflexivity|].
  cbn [rev]. rewrite <- app_assoc. reflexivity.
Qed.
Lemma path_ext_iff e f : no_byte x2e e -> no_byte x2f e -> (path_ext f = x2e :: e <-> ends_in (x2e :: e) f).
Proof.
  intros N1 N2. unfold path_ext, ends_in. split.
  - intros H. destruct (ext_loop_some _ _ _ H) as [Q|(m & r & El & Ee)]; [discriminate|].
    rewrite app_nil_r in Ee. injection Ee as ->. exists (rev r). rewrite <- (rev_involutive f), El, rev_app_distr. cbn [rev].
    rewrite <- app_assoc. reflexivity.
  - intros (stem & ->). rewrite rev_app_distr. cbn [rev]. rewrite <- app_assoc. cbn [app]. rewrite ext_loop_app by assumption.
    rewrite app_nil_r. reflexivity.
Qed.
Lemma j_ext_iff e f : no_byte x2e e -> (j_ext f = Some (x2e :: e) <-> ends_in (x2e :: e) f).
Proof.
  intros N. split.
  - intros H. destruct (j_ext_some _ _ H) as (stem & r & -> & _). exists stem. reflexivity.
  - intros (stem & ->). apply j_ext_app. assumption.
Qed.

(** C74: Go and Java take a file for an ipdb file exactly when its name ends in .ipdb. *)
Theorem C74_extension : forall f,
  (path_ext f = str ".ipdb" <-> ends_in (str ".ipdb") f) /\ (j_ext f = Some (str ".ipdb") <-> ends_in (str ".ipdb") f).
Proof.
  intros f. change (str ".ipdb") with (x2e :: str "ipdb").
  split; [apply path_ext_iff|apply j_ext_iff]; vm_compute; intuition discriminate.
Qed.
Print Assumptions C74_extension.

(* ---------- reading ---------- *)
Lemma readAll_ok got : forall fuel k rest out, length rest < fuel -> j_readAll fuel k got rest out = Ok (out ++ rest).
Proof.
  induction fuel as [|f IH]; intros k rest out L; [lia|]. cbn [j_readAll].
  destruct rest as [|c rest]; [rewrite app_nil_r; reflexivity|].
  set (n := Nat.min _ _). assert (1 <= n) as Hn.
  { unfold n. assert (1 <= N.to_nat 16384) by (clear; lia). lia. }
  rewrite IH.
  - rewrite <- app_assoc, firstn_skipn. reflexivity.
  - rewrite skipn_length. cbn [length] in *. lia.
Qed.
(** C74: however the system splits the file into reads, Java reads all of it. *)
Theorem C74_read_all : forall got content, j_readAll (S (length content)) 0 got content [] = Ok content.
Proof. intros. apply readAll_ok. lia. Qed.
Print Assumptions C74_read_all.

(* ---------- opening ---------- *)
(** C74: Java crashes for a name without a dot, whether the file exists or not; otherwise a file that
    cannot be read and a name that does not end in .ipdb are errors, and any other file is opened like
    its content. *)
Theorem C74_java : forall unmarshal lossy ips got f content,
  (no_byte x2e f -> j_create_file unmarshal lossy ips got f content = Panic) /\
  (~ no_byte x2e f -> content = None -> exists e, j_create_file unmarshal lossy ips got f content = Err e) /\
  (~ no_byte x2e f -> ~ ends_in (str ".ipdb") f -> exists e, j_create_file unmarshal lossy ips got f content = Err e) /\
  (forall data, ends_in (str ".ipdb") f -> content = Some data ->
     j_create_file unmarshal lossy ips got f content = j_create unmarshal lossy ips data).
Proof.
  intros unmarshal lossy ips got f content. unfold j_create_file. split; [|split; [|split]].
  - intros N. rewrite (proj2 (j_ext_none f) N). reflexivity.
  - intros N ->. destruct (j_ext f) eqn:Q; [eauto|]. apply j_ext_none in Q. contradiction.
  - intros N Ne. destruct (j_ext f) as [e|] eqn:Q; [|apply j_ext_none in Q; contradiction].
    destruct content as [b|]; [|eauto]. rewrite C74_read_all. cbn [bind]. unfold j_create_format.
    destruct (bytes_eqb_spec e (str ".ipdb")) as [->|]; [|eauto]. exfalso. apply Ne. apply C74_extension. assumption.
  - intros data En ->. apply C74_extension in En. rewrite En, C74_read_all. cbn [bind]. unfold j_create_format.
    rewrite bytes_eqb_refl. reflexivity.
Qed.
Print Assumptions C74_java.

(** C74: Rust reads every file as ipdb, whatever its name; a file that cannot be read is an error. *)
Theorem C74_rust : forall unmarshal,
  (forall data, rs_from_file unmarshal (Some data) = rs_new unmarshal data) /\ exists e, rs_from_file unmarshal None = Err e.
Proof. intros. split; [reflexivity|]. eexists. reflexivity. Qed.
Print Assumptions C74_rust.

(** C74: Go crashes when the file cannot be read; a name with another extension than .ipdb and
    .awdb is an error; otherwise the file is opened like its content. *)
Theorem C74_go : forall E ipList f,
  NewDb (serverFormats E) ipList f None = Panic /\
  forall data,
    (ends_in (str ".ipdb") f -> NewDb (serverFormats E) ipList f (Some data) = NewDbFromBytes (serverFormats E) ipList (str ".ipdb") data) /\
    (ends_in (str ".awdb") f -> NewDb (serverFormats E) ipList f (Some data) = NewDbFromBytes (serverFormats E) ipList (str ".awdb") data) /\
    (~ ends_in (str ".ipdb") f -> ~ ends_in (str ".awdb") f -> NewDb (serverFormats E) ipList f (Some data) = Err ErrUnsupportedFormat).
Proof.
  intros E il f. split; [reflexivity|]. intros data. unfold NewDb.
  assert (path_ext f = str ".awdb" <-> ends_in (str ".awdb") f) as Aw.
  { change (str ".awdb") with (x2e :: str "awdb"). apply path_ext_iff; vm_compute; intuition discriminate. }
  destruct (C74_extension f) as [Ip _]. split; [|split].
  - intros H. apply Ip in H. rewrite H. reflexivity.
  - intros H. apply Aw in H. rewrite H. reflexivity.
  - intros N1 N2. unfold NewDbFromBytes, GetQueryFormat, serverFormats, init_ipdb, init_awdb.
    cbn [RegisterDumpFormat RegisterQueryFormat RegisterPackFormat queryFormats noFormats assoc].
    destruct (bytes_eqb_spec (str ".ipdb") (path_ext f)) as [Q|_]; [exfalso; apply N1, Ip; congruence|].
    destruct (bytes_eqb_spec (str ".awdb") (path_ext f)) as [Q|_]; [exfalso; apply N2, Aw; congruence|]. reflexivity.
Qed.
Print Assumptions C74_go.

(** C74: a packed database in a file whose name ends in .ipdb is opened by its name in the three
    languages; under another name only Rust (and Go never as ipdb) opens it. *)
Theorem C74_packed : forall E unmarshal_rs unmarshal_j lossy ips ipList d bs f,
  Forall2 row_ok (dIps (Operate.contents d)) bs -> disjoint bs -> plain_columns (Operate.hFields d) -> Operate.hFields d <> [] ->
  json_ok (jMeta E) (jUnMeta E) (eNow E) (Operate.contents d) ->
  json_ok32 (jMeta E) unmarshal_rs (eNow E) (Operate.contents d) -> json_ok32 (jMeta E) unmarshal_j (eNow E) (Operate.contents d) ->
  exists data, PackBytes (converterFormats E) (str ".ipdb") d = Ok (data, d) /\
    ((Z.of_nat (length data) < 2 ^ 31)%Z ->
     (exists r, rs_from_file unmarshal_rs (Some data) = Ok r) /\
     (ends_in (str ".ipdb") f ->
       (exists q, NewDb (serverFormats E) ipList f (Some data) = Ok q) /\
       (forall got, exists j, j_create_file unmarshal_j lossy ips got f (Some data) = Ok j)) /\
     (~ ends_in (str ".ipdb") f ->
       (~ ends_in (str ".awdb") f -> NewDb (serverFormats E) ipList f (Some data) = Err ErrUnsupportedFormat) /\
       (forall got j, j_create_file unmarshal_j lossy ips got f (Some data) <> Ok j))).
Proof.
  intros E urs uj lossy ips il d bs f HR HD HC HF HJ HJr HJj.
  destruct (C47_packed E d bs il HR HD HC HF HJ) as (data & P & Q). exists data. split; [assumption|]. intros Hs.
  destruct (open_all (jMeta E) (jUnMeta E) urs uj lossy ips (eNow E) (Operate.contents d) bs HR HC HF HJ HJr HJj) as (data' & P' & O).
  assert (data' = data) as ->.
  { unfold PackBytes in P. change (GetPackFormat (converterFormats E) (str ".ipdb")) with (Some (packH (jMeta E) (eNow E))) in P.
    cbv beta iota in P. rewrite packH_plain in P by assumption. rewrite P' in P. cbn [bind] in P. congruence. }
  destruct (O Hs) as (g & r & j & n & sz & Og & Or & Oj & _).
  destruct (C74_go E il f) as [_ G]. destruct (G data) as (G1 & G2 & G3). clear G.
  split; [exists r; exact Or|]. split.
  - intros En. split.
    + destruct (Q ltac:(lia)) as (q & Oq & _). exists q. rewrite G1 by assumption. exact Oq.
    + intros got. exists j. destruct (C74_java uj lossy ips got f (Some data)) as (_ & _ & _ & J). rewrite (J data En eq_refl). exact Oj.
  - intros En. split; [intros Na; apply G3; assumption|]. intros got j'. destruct (C74_java uj lossy ips got f (Some data)) as (J1 & _ & J3 & _).
    destruct (in_dec Byte.byte_eq_dec x2e f) as [I|I].
    + destruct (J3 ltac:(intros N; apply N; assumption) En) as [e ->]. discriminate.
    + rewrite J1 by exact I. discriminate.
Qed.
Print Assumptions C74_packed.

(** Cases: names; a directory with a dot; no dot; the C61 database by name. *)
Example C74_names : j_ext (str "a.b/qqwry.ipdb") = Some (str ".ipdb") /\ path_ext (str "a.b/qqwry.ipdb") = str ".ipdb" /\
  j_ext (str "a.ipdb/qqwry") = Some (str ".ipdb/qqwry") /\ path_ext (str "a.ipdb/qqwry") = [] /\
  j_ext (str "qqwry") = None /\ path_ext (str "qqwry") = [].
Proof. repeat split. Qed.
Example C74_crash_case : j_create_file unmarshal_meta (fun s => s) [] (fun _ => 5) (str "qqwry") (Some []) = Panic.
Proof. reflexivity. Qed.
Example C74_read_case : j_readAll 12 0 (fun k => k) (str "hello world") [] = Ok (str "hello world").
Proof. reflexivity. Qed.
(** The dataset of C61_case meets the premises of C74_packed. *)
Example C74_premises : let d := fresh (fun _ => 0) ver_ipd in let E := PropsConvert.case_env in
  Forall2 row_ok (dIps (Operate.contents d)) ver_blocks /\ disjoint ver_blocks /\ plain_columns (Operate.hFields d) /\ Operate.hFields d <> [] /\
  json_ok (jMeta E) (jUnMeta E) (eNow E) (Operate.contents d) /\ json_ok32 (jMeta E) (jUnMeta E) (eNow E) (Operate.contents d).
Proof.
  cbn zeta. rewrite (proj1 (PropsFacade3.fresh_spec (fun _ => 0) ver_ipd)).
  assert (Forall2 row_ok (dIps ver_ipd) ver_blocks) as HR by (constructor; [row_ok_solve|]; constructor; [row_ok_solve|]; constructor; [row_ok_solve|]; constructor).
  assert (plain_columns (dFields ver_ipd)) as HC by (intros f [<-|[<-|[]]] N H; try (apply N; reflexivity); vm_compute in H; discriminate H).
  assert (utf8_names ver_ipd) as UN by (constructor; cbn [ver_ipd dFields dVersion vVersion vExtra]; [repeat (constructor; [ascii|]); constructor|ascii|constructor]).
  destruct (C54_json_ok true true (eNow PropsConvert.case_env) ver_ipd UN ltac:(unfold int64; cbn; lia)) as [J1 J2].
  split; [exact HR|]. split; [apply PropsConvert.disjointb_ok; vm_compute; reflexivity|].
  split; [exact HC|]. split; [discriminate|]. split; [exact J1|exact J2].
Qed.

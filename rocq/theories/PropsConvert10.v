(** Property theorems C73: what a dataset says about itself (version information, columns, networks)
    through the operations and through a run of the converter. *)
From Verif Require Import Base NetIP IpNet Spec IpNetProofs SplitProofs IpNetProofs2 Inf Ipdb SpecIpdb SpecExport Export ExportProofs BuildProofs Bits.
From Verif Require Import TrieProofs WriterProofs ReaderProofs OpenProofs PackProofs PropsIpdb DumpProofs PropsExport PropsDump.
From Verif Require Import Json JsonProofs PropsJson.
From Verif Require Import Tables Operate SpecOperate OperateProofs OperateProofs2 MergeProofs PropsOperate PropsOperate2 PropsOperate3 NetText NetTextProofs Plain SpecText PlainProofs PropsPlain Memip AwDecode AwTree Facade PropsFacade PropsFacade2 PropsFacade3 ConvertProofs ConvertProofs2 FastOpen PropsConvert PropsConvert2 Convert PropsConvert3 PropsConvert4 Date PropsForeign PropsVersion PropsCases PropsConvert5 PropsConvert6.
Open Scope nat_scope.

(* ---------- specification ---------- *)
(** Everything but the number of rows and the extra information is as before. *)
Definition same_origin (v v' : VersionInfo) : Prop :=
  vIpType v' = vIpType v /\ vBuild v' = vBuild v /\ vVersion v' = vVersion v /\ vLanguages v' = vLanguages v.
(** [v'] is [v] with the texts [x] added to the extra information. *)
Definition notes_added (x : list bytes) (v v' : VersionInfo) : Prop :=
  same_origin v v' /\ vCount v' = vCount v /\ vExtra v' = vExtra v ++ x.
(** [v'] is [v] with the number of rows [n] (a 32 bit number). *)
Definition counts (n : nat) (v v' : VersionInfo) : Prop :=
  same_origin v v' /\ vExtra v' = vExtra v /\ vCount v' = (N.of_nat n mod 2 ^ 32)%N.
(** The networks of the rows, in order. *)
Definition networks (d : HData) : list IPNet := map cidr (dIps (contents d)).
(** The column [c] is there already, or it is added at the end. *)
Definition column_added (c : bytes) (fs fs' : list bytes) : Prop := (In c fs /\ fs' = fs) \/ (~ In c fs /\ fs' = fs ++ [c]).

Lemma networks_rows d : networks d = map fst (hRows d).
Proof. unfold networks, contents. cbn [dIps]. rewrite map_map. apply map_ext. intros [n s]. reflexivity. Qed.
Lemma each_row_nets grow body rows : forall k h h' rows', each_row grow body k h rows = Ok (h', rows') -> map fst rows' = map fst rows.
Proof.
  induction rows as [|[n s] rows IH]; intros k h h' rows' H; cbn [each_row] in H; [injection H as _ <-; reflexivity|].
  destruct (body k n (view h s)) as [a| | |]; cbn [bind] in H; try discriminate.
  destruct (perform grow h s a) as [[h1 s1]| | |]; cbn [bind] in H; try discriminate.
  destruct (each_row grow body (S k) h1 rows) as [[h2 r2]| | |] eqn:Q; cbn [bind] in H; try discriminate.
  assert (rows' = (n, s1) :: r2) as -> by congruence. cbn [map fst]. f_equal. eapply IH. exact Q.
Qed.
Lemma origin_refl v : same_origin v v.
Proof. repeat split. Qed.
Lemma offset_added c fs : column_added c fs (match offset_of c fs with None => fs ++ [c] | Some _ => fs end).
Proof.
  destruct (offset_of c fs) as [i|] eqn:E; [left|right]; (split; [|reflexivity]).
  - apply offset_of_Some in E as [E _]. eapply nth_error_In. exact E.
  - apply offset_of_None in E. assumption.
Qed.

(** C73: normalising texts, copying operators and attaching districts leave the version information
    and the networks alone; only the last adds a column. *)
Theorem C73_plain_operations : forall tabs order grow d,
  (let d' := ReplaceShortage tabs d in hVersion d' = hVersion d /\ networks d' = networks d /\ hFields d' = hFields d) /\
  (forall d', TrimAsnIspDup order d = Ok d' -> hVersion d' = hVersion d /\ networks d' = networks d /\ hFields d' = hFields d) /\
  (forall d', AttachDistrict grow d = Ok d' ->
     hVersion d' = hVersion d /\ networks d' = networks d /\ column_added (str "district") (hFields d) (hFields d')).
Proof.
  intros tabs order grow d. split; [cbn zeta; rewrite !networks_rows; cbn; auto|]. split.
  - intros d' H. rewrite !networks_rows. unfold TrimAsnIspDup in H. destruct (_ =? 0); [injection H as <-; auto|].
    destruct (collect_asn _ _ _ _ _) as [m| | |]; cbn [bind] in H; try discriminate. destruct (_ =? 0); [injection H as <-; auto|].
    match type of H with bind ?x _ = _ => destruct x as [[h rows]| | |] eqn:E end; cbn [bind] in H; try discriminate.
    apply each_row_nets in E. injection H as <-. cbn [hVersion hRows hFields]. auto.
  - intros d' H. rewrite !networks_rows. unfold AttachDistrict in H. pose proof (offset_added fDistrict (hFields d)) as Oa.
    change (str "district") with fDistrict.
    destruct (offset_of fProvince _) as [pp|]; [|injection H as <-; cbn [hVersion hRows hFields]; auto].
    match type of H with bind ?x _ = _ => destruct x as [[h rows]| | |] eqn:E end; cbn [bind] in H; try discriminate.
    apply each_row_nets in E. injection H as <-. cbn [hVersion hRows hFields]. auto.
Qed.
Print Assumptions C73_plain_operations.

(** C73: joining neighbours changes the number of rows in the version information, to the true one
    (modulo 2^32), and nothing else; the columns stay. *)
Theorem C73_merge : forall d d', MergeNearNetwork d = Ok d' ->
  counts (length (dIps (contents d'))) (hVersion d) (hVersion d') /\ hFields d' = hFields d.
Proof.
  intros d d' H. unfold MergeNearNetwork in H. destruct (hRows d) as [|[n f] rest]; [discriminate|].
  destruct (NewRange n) as [r| | |]; cbn [bind] in H; try discriminate.
  destruct (merge_loop _ _ _ _) as [rs| | |]; cbn [bind] in H; try discriminate.
  destruct (merge_split rs) as [rows| | |]; cbn [bind] in H; try discriminate. injection H as <-.
  unfold contents, counts, same_origin, set_count. cbn. rewrite map_length. auto 10.
Qed.
Print Assumptions C73_merge.

(** C73: the three operations with lines add one text to the extra information, whatever else they
    do, and leave the networks alone. *)
Theorem C73_line_operations : forall grow q asnLine ver d,
  (forall d', AttachLineByCidr grow q ver d = Ok d' ->
     notes_added [ver] (hVersion d) (hVersion d') /\ networks d' = networks d /\ column_added (str "line") (hFields d) (hFields d')) /\
  (forall d', ReplaceLineByCidr q ver d = Ok d' ->
     notes_added [ver] (hVersion d) (hVersion d') /\ networks d' = networks d /\ hFields d' = hFields d) /\
  (forall d', AttachLineByAsn grow asnLine ver d = Ok d' ->
     notes_added [ver] (hVersion d) (hVersion d') /\ networks d' = networks d /\
     (if in_array (str "asn") (hFields d) then column_added (str "line") (hFields d) (hFields d') else hFields d' = hFields d)).
Proof.
  intros grow q asnLine ver d.
  assert (notes_added [ver] (hVersion d) (add_extra (hVersion d) ver)) as N by (repeat split).
  change (str "line") with fLine. change (str "asn") with fAsn. split; [|split]; intros d' H; rewrite !networks_rows.
  - unfold AttachLineByCidr in H. pose proof (offset_added fLine (hFields d)) as Oa.
    destruct (offset_of fCountry _) as [pp|]; [|injection H as <-; cbn [hVersion hRows hFields]; auto].
    match type of H with bind ?x _ = _ => destruct x as [[h rows]| | |] eqn:E end; cbn [bind] in H; try discriminate.
    apply each_row_nets in E. injection H as <-. cbn [hVersion hRows hFields]. auto.
  - unfold ReplaceLineByCidr in H.
    destruct (offset_of fISP (hFields d)) as [pi|]; [|injection H as <-; cbn [hVersion hRows hFields]; auto].
    destruct (offset_of fCountry (hFields d)) as [pc|]; [|injection H as <-; cbn [hVersion hRows hFields]; auto].
    match type of H with bind ?x _ = _ => destruct x as [[h rows]| | |] eqn:E end; cbn [bind] in H; try discriminate.
    apply each_row_nets in E. injection H as <-. cbn [hVersion hRows hFields]. auto.
  - unfold AttachLineByAsn in H. destruct (in_array fAsn (hFields d)); cbn [negb] in H; [|injection H as <-; cbn [hVersion hRows hFields]; auto].
    match type of H with bind ?x _ = _ => destruct x as [[h rows]| | |] eqn:E end; cbn [bind] in H; try discriminate.
    apply each_row_nets in E. injection H as <-. cbn [hVersion hRows hFields]. split; [assumption|]. split; [assumption|].
    destruct (in_array fLine (hFields d)) eqn:I; cbn [negb]; [left|right]; (split; [|reflexivity]).
    + apply in_array_iff. assumption.
    + intros J. apply in_array_iff in J. congruence.
Qed.
Print Assumptions C73_line_operations.
(** C48: without an asn column nothing but the note is added. *)
Theorem C48_no_asn : forall grow asnLine ver d, ~ In (str "asn") (dFields (contents d)) ->
  exists d', AttachLineByAsn grow asnLine ver d = Ok d' /\ dFields (contents d') = dFields (contents d) /\
    dIps (contents d') = dIps (contents d) /\ notes_added [ver] (dVersion (contents d)) (dVersion (contents d')).
Proof.
  intros grow asnLine ver d N. unfold AttachLineByAsn. change (hFields d) with (dFields (contents d)).
  destruct (in_array fAsn (dFields (contents d))) eqn:I; [apply in_array_iff in I; contradiction|]. cbn [negb].
  eexists. split; [reflexivity|]. repeat split.
Qed.
Print Assumptions C48_no_asn.

(* ---------- the converter ---------- *)
(** The dataset [d] that a run makes of the dumped dataset [d0], as far as it describes itself: the
    number of rows is the true one, a line database has left its version and build time behind, a
    line column may have been added, then a district column. *)
Definition described (line : option (queryDb * bool)) (d0 d : HData) : Prop :=
  let v := hVersion d in
  same_origin (hVersion d0) v /\ vCount v = (N.of_nat (length (dIps (contents d))) mod 2 ^ 32)%N /\
  match line with
  | None => vExtra v = vExtra (hVersion d0) /\ column_added (str "district") (hFields d0) (hFields d)
  | Some (q, replace) =>
      vExtra v = vExtra (hVersion d0) ++ [vVersion (q_version q) ++ str "-" ++ dec_int (vBuild (q_version q))] /\
      exists fs, (if replace then fs = hFields d0 else column_added (str "line") (hFields d0) fs) /\
                 column_added (str "district") fs (hFields d)
  end.
Lemma nets_length d d' : networks d' = networks d -> length (dIps (contents d')) = length (dIps (contents d)).
Proof. intros H. apply (f_equal (@length _)) in H. unfold networks in H. rewrite !map_length in H. exact H. Qed.
Lemma ops_described order grow line d0 d : apply_ops (converterOps order grow line) d0 = Ok d -> described line d0 d.
Proof.
  unfold converterOps, DefaultOperates. intros H. cbn [app apply_ops bind] in H.
  destruct (C73_plain_operations NormalizedMap order grow d0) as ((V1 & N1 & F1) & _).
  set (d1 := ReplaceShortage NormalizedMap d0) in *.
  destruct (TrimAsnIspDup order d1) as [d2| | |] eqn:T; cbn [bind] in H; try discriminate.
  destruct (C73_plain_operations NormalizedMap order grow d1) as (_ & P & _). destruct (P _ T) as (V2 & N2 & F2). clear P.
  destruct (MergeNearNetwork d2) as [d3| | |] eqn:M; cbn [bind] in H; try discriminate.
  destruct (C73_merge _ _ M) as ((O3 & E3 & C3) & F3).
  assert (exists d4, notes_added (match line with None => [] | Some (q, _) => [line_version q] end) (hVersion d3) (hVersion d4) /\ networks d4 = networks d3 /\
            (match line with Some (q, false) => column_added (str "line") (hFields d3) (hFields d4) | _ => hFields d4 = hFields d3 end) /\
            AttachDistrict grow d4 = Ok d) as (d4 & (O4 & C4 & E4) & N4 & F4 & H4).
  { destruct line as [[q [|]]|]; cbn [line_ops app apply_ops] in H.
    - destruct (ReplaceLineByCidr (line_query q) (line_version q) d3) as [d4| | |] eqn:L; cbn [bind] in H; try discriminate.
      destruct (AttachDistrict grow d4) as [d5| | |] eqn:A; cbn [bind] in H; try discriminate. injection H as ->.
      exists d4. destruct (proj1 (proj2 (C73_line_operations grow (line_query q) [] (line_version q) d3)) _ L) as (X & Y & Z). auto.
    - destruct (AttachLineByCidr grow (line_query q) (line_version q) d3) as [d4| | |] eqn:L; cbn [bind] in H; try discriminate.
      destruct (AttachDistrict grow d4) as [d5| | |] eqn:A; cbn [bind] in H; try discriminate. injection H as ->.
      exists d4. destruct (proj1 (C73_line_operations grow (line_query q) [] (line_version q) d3) _ L) as (X & Y & Z). auto.
    - destruct (AttachDistrict grow d3) as [d5| | |] eqn:A; cbn [bind] in H; try discriminate. injection H as ->.
      exists d3. repeat split; try reflexivity; [symmetry; apply app_nil_r|assumption]. }
  destruct (C73_plain_operations NormalizedMap order grow d4) as (_ & _ & P). destruct (P _ H4) as (V5 & N5 & F5). clear P.
  unfold described. rewrite V5. split; [|split].
  - unfold same_origin in *. rewrite <- V1. rewrite <- V2. intuition congruence.
  - rewrite C4, C3. do 2 f_equal. symmetry. apply nets_length. congruence.
  - rewrite E4, E3, V2, V1. destruct line as [[q [|]]|].
    + split; [reflexivity|]. exists (hFields d4). split; [congruence|assumption].
    + split; [reflexivity|]. exists (hFields d4). split; [rewrite <- F1, <- F2, <- F3; assumption|assumption].
    + split; [apply app_nil_r|]. rewrite <- F1, <- F2, <- F3, <- F4. assumption.
Qed.
(** C73: one run of the converter. *)
Theorem C73_run : forall E ipList order grow fs input rule line replace d,
  run_data E ipList order grow fs input rule line replace d ->
  exists d0 q, DumpFile (converterFormats E) input (fs input) (converterRule rule) [] = Ok d0 /\ described q d0 d /\
    (if is_nil line then q = None
     else exists db content, fs line = Some content /\ NewDbFromBytes (converterFormats E) ipList (path_ext line) content = Ok db /\ q = Some (db, replace)).
Proof.
  intros E il order grow fs input rule line replace d (q & Q & D). unfold DumpFile in *.
  destruct (fs input) as [data|]; [|discriminate]. destruct (GetDumpFormat _ _) as [create|]; [|discriminate].
  destruct (create data _) as [d0| | |]; cbn [bind] in D; try discriminate.
  exists d0, q. split; [reflexivity|]. split; [|assumption]. exact (ops_described _ _ _ _ _ D).
Qed.
Print Assumptions C73_run.
(** C73: the dataset dumped from an .ipdb or .awdb file describes itself as the opened file does,
    whatever the rule. *)
Theorem C73_source : forall E ipList file data rule d q,
  In (path_ext file) [str ".ipdb"; str ".awdb"] -> DumpFile (converterFormats E) file (Some data) rule [] = Ok d ->
  NewDbFromBytes (converterFormats E) ipList (path_ext file) data = Ok q -> hVersion d = q_version q.
Proof.
  intros E il file data rule d q I D Q. unfold DumpFile in D. unfold NewDbFromBytes in Q. destruct I as [I|[I|[]]]; rewrite <- I in *.
  - change (GetDumpFormat (converterFormats E) (str ".ipdb")) with (Some (fun data ept => fresh_of (spare_of E ept) (Export.dump (jUnMeta E) (eFuel E) data ept))) in D.
    change (GetQueryFormat (converterFormats E) (str ".ipdb")) with (Some (fun data => let* ' (r, c) := newQuerier (jUnMeta E) data in Ok (QIpdb r c))) in Q.
    cbv beta iota in *. unfold fresh_of in D. destruct (Export.dump _ _ _ _) as [d0| | |] eqn:Du; cbn [bind apply_ops] in D; try discriminate. injection D as <-.
    destruct (dump_rows_by _ _ _ _ _ Du) as (r & bs & O & _ & V & _). destruct (fresh_spec (spare_of E (ParseRule rule)) d0) as (EC & _).
    change (hVersion (fresh (spare_of E (ParseRule rule)) d0)) with (dVersion (contents (fresh (spare_of E (ParseRule rule)) d0))). rewrite EC, V.
    unfold newQuerier in Q. rewrite O in Q. cbn [bind q_build] in Q. destruct (BuildCache _ _ _) as [c| | |]; cbn [bind] in Q; try discriminate.
    injection Q as <-. reflexivity.
  - change (GetDumpFormat (converterFormats E) (str ".awdb")) with (Some (fun data ept => fresh_of (spare_of E ept) (aw_dump (eFuel E) data ept))) in D.
    change (GetQueryFormat (converterFormats E) (str ".awdb")) with (Some (fun data => let* r := aw_open data in Ok (QAwdb r))) in Q.
    cbv beta iota in *. unfold fresh_of, aw_dump in D. destruct (aw_open data) as [r| | |]; cbn [bind] in D, Q; try discriminate.
    destruct (BuildIPData _ _ _ _ _ _) as [[fs rows]| | |]; cbn [bind apply_ops] in D; try discriminate. injection D as <-.
    set (d0 := mkData fs (aw_version r) rows). destruct (fresh_spec (spare_of E (ParseRule rule)) d0) as (EC & _).
    change (hVersion (fresh (spare_of E (ParseRule rule)) d0)) with (dVersion (contents (fresh (spare_of E (ParseRule rule)) d0))). rewrite EC.
    cbn [q_build bind] in Q. injection Q as <-. reflexivity.
Qed.
Print Assumptions C73_source.
(** C73: an .ipdb output, opened again, shows the dataset's family, version text and extra
    information, and the time of packing as build time (the input's build time is lost). *)
Theorem C73_written : forall E d bs data d' ipList q, Forall2 row_ok (dIps (contents d)) bs -> plain_columns (hFields d) -> hFields d <> [] ->
  json_ok (jMeta E) (jUnMeta E) (eNow E) (contents d) -> (0 <= eNow E)%Z ->
  PackBytes (converterFormats E) (str ".ipdb") d = Ok (data, d') -> (Z.of_nat (length data) < 2 ^ 32)%Z ->
  NewDbFromBytes (serverFormats E) ipList (str ".ipdb") data = Ok q ->
  shows (str "ipip.net-" ++ day_text (day_of (eNow E))) (eNow E) (hVersion d) (q_version q).
Proof.
  intros E d bs data d' il q HR HC HF HJ Hn P Hs Q.
  destruct (open_query _ _ _ _ Q) as (r & c & -> & O & _). cbn [q_version].
  assert (Ipdb.pack (jMeta E) (eNow E) (contents d) = Ok data) as P'.
  { unfold PackBytes in P. change (GetPackFormat (converterFormats E) (str ".ipdb")) with (Some (packH (jMeta E) (eNow E))) in P.
    cbv beta iota in P. rewrite packH_plain in P by assumption. destruct (Ipdb.pack _ _ _) as [t| | |]; cbn [bind] in P; congruence. }
  destruct (pack_winv (eNow E) (contents d) bs (rows_net _ _ HR) HC) as [w [P0 [E0 [W [M S]]]]].
  unfold Ipdb.pack in P'. rewrite E0 in P'. cbn [bind] in P'. injection P' as <-.
  pose proof (body_length w) as BL. destruct (PropsForeign.save_parts (jMeta E) w) as [Ls _].
  destruct (open_packed w P0 _ W ltac:(unfold OpenProofs.fits; lia) (jMeta E) (jUnMeta E)) as [g [Og [_ [Gm _]]]].
  { rewrite S. apply HJ; lia. }
  { rewrite M. discriminate. }
  { rewrite M. cbn [meta_of mFields]. intros X. apply map_eq_nil in X. contradiction. }
  { lia. }
  rewrite O in Og. injection Og as <-. rewrite S in Gm.
  unfold shows, version. rewrite Gm. cbn [vIpType vBuild vExtra vLanguages vVersion meta_of mBuild mExtra mLanguages mVersion map fst].
  rewrite C61_date_text by assumption. split; [|repeat split].
  unfold IpType, family, meta_of. cbn [mIPVersion]. unfold ipVersion. change (dVersion (contents d)) with (hVersion d).
  destruct (Z.eqb_spec (vIpType (hVersion d)) 1) as [->|]; [reflexivity|].
  destruct (Z.eqb_spec (vIpType (hVersion d)) 2) as [->|]; reflexivity.
Qed.
Print Assumptions C73_written.
(** A case: an IPv6 file of three rows, version v1, with a line database of version l1; the
    input's version, the dataset's and the output's. *)
Definition versions_run : option (VersionInfo * VersionInfo * list bytes * VersionInfo) :=
  match NewDbFromBytes (serverFormats case_env) [] (str ".ipdb") (packed_file share_line), NewDbFromBytes (converterFormats case_env) [] (str ".ipdb") (packed_file share_ipd) with
  | Ok lq, Ok q1 =>
      match DumpFile (converterFormats case_env) (str "a.ipdb") (Some (packed_file share_ipd)) (converterRule (str "default")) (converterOps (fun _ m => m) (fun _ => 1) (Some (lq, false))) with
      | Ok d =>
          match PackBytes (converterFormats case_env) (str ".ipdb") d with
          | Ok (data, _) =>
              match NewDbFromBytes (serverFormats case_env) [] (str ".ipdb") data with
              | Ok q => Some (q_version q1, hVersion d, hFields d, q_version q)
              | _ => None end
          | _ => None end
      | _ => None end
  | _, _ => None end.
Example C73_case : versions_run = Some
  (mkVersion 2 2 0 (str "v1") [str "CN"] [], mkVersion 2 3 0 (str "v1") [str "CN"] [str "l1-0"],
   map str ["country"; "province"; "city"; "isp"; "asn"; "continent"; "district"; "line"]%string,
   mkVersion 2 2 0 (str "v1") [str "CN"] [str "l1-0"]).
Proof. vm_compute. reflexivity. Qed.

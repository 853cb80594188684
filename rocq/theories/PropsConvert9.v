(** Property theorems C58 and C63 for IPv6 awdb files. *)
From Verif Require Import Base NetIP IpNet Spec IpNetProofs SplitProofs IpNetProofs2 Inf Ipdb SpecIpdb SpecExport Export ExportProofs BuildProofs Bits.
From Verif Require Import TrieProofs WriterProofs ReaderProofs OpenProofs PackProofs PropsIpdb DumpProofs PropsExport PropsDump.
From Verif Require Import Json JsonProofs PropsJson.
From Verif Require Import Tables Operate SpecOperate OperateProofs OperateProofs2 MergeProofs MergeProofs2 PropsMerge PropsOperate PropsOperate2 PropsOperate3 NetText NetTextProofs Plain SpecText PlainProofs PropsPlain Memip AwDecode AwTree Facade PropsFacade2 PropsFacade3 ConvertProofs ConvertProofs2 FastOpen PropsConvert PropsConvert2 Convert.
From Verif Require Import SpecAw AwDecodeProofs SpecAwTree AwTreeProofs AwIterProofs PropsAwTree PropsAwQuery.
From Verif Require Import PropsConvert3 PropsConvert5 PropsConvert6.
From Coq Require Import Permutation.
Open Scope nat_scope.

(** The rows of a dump of an IPv6 awdb file that never has to ask for an IPv4 address. *)
Lemma aw_rows_by6 fuel data r ept d : aw_open data = Ok r ->
  (aNodeCount (wMeta r) * aRecordSize (wMeta r) < 2 ^ 64)%N -> aIPVersion (wMeta r) = 6%N ->
  (forall m, asked (aw_find r) IPv6zero m -> ~ is_v4 (addr m)) -> aw_dump fuel data ept = Ok d ->
  dFields d = out_fields awFieldsMap awFields ept /\ dVersion d = aw_version r /\
  exists bs, tiles 0 bs (2 ^ 128)%N /\
    Forall2 (fun row b => net_is (cidr row) b /\ length (nIP (cidr row)) = 16 /\ v4b (base b) = false /\ exists rec, exported awFieldsMap ept (dFields d) rec (fvals row) /\
      forall ip, valid_ip ip -> ~ is_v4 (addr ip) -> in_block b (addr ip) ->
        exists m, LookupNetwork r ip = Ok (cidr row, Some (VMap m)) /\ strings_of (final_map m) = Ok rec) (dIps d) bs.
Proof.
  intros O Hlt E6 NA D. destruct (open_reads data r O Hlt) as [tbl R].
  unfold aw_dump in D. rewrite O in D. cbn [bind] in D.
  destruct (version6 r E6) as [Fam V6].
  destruct (BuildIPData _ _ _ _ _ _) as [[ofs rows]| | |] eqn:B; try discriminate. cbn [bind] in D. injection D as <-. cbn [dFields dIps dVersion].
  assert (B' : BuildIPData fuel awFieldsMap awFields ept (aw_version r) (only_v6 r) = Ok (ofs, rows)).
  { rewrite <- B. unfold BuildIPData. rewrite V6.
    rewrite (build_ext r (row_values awFieldsMap ept (out_fields awFieldsMap awFields ept)) (only_v6 r) fuel IPv6zero); [reflexivity|].
    intros m Hm. apply only_v6_non, NA. apply (visits_asked r tbl _ R IPv6zero m (or_intror eq_refl) Hm). }
  destruct (C19_success_covers fuel awFieldsMap awFields ept (aw_version r) (only_v6 r) ofs rows aw_map_nodup) as (E & bs & T & F2 & _);
    [rewrite Fam; exact (only_v6_finder r tbl R)|exact B'|].
  rewrite Fam in T. cbn [fam6 fam_first fam_end] in T. split; [exact E|]. split; [reflexivity|]. exists bs. split; [assumption|].
  clear T B B'. induction F2 as [|row b rows bs (Hn & ip0 & rec & V0 & A0 & F0 & X) F2 IH]; constructor; [|exact IH].
  apply only_v6_ok in F0 as [N0 F0]. apply aw_find_inv in F0 as (m & H0 & Sm).
  destruct (C35_network_ipv6 r tbl ip0 _ _ R V0 N0 H0) as (b0 & B1 & B2 & B3 & B4 & B5).
  rewrite (net_is_fun _ _ _ B1 Hn) in *.
  split; [assumption|]. split; [assumption|]. split.
  { destruct (v4b (base b)) eqn:Q; [|reflexivity]. exfalso. apply N0. rewrite A0. apply v4b_iff. exact Q. }
  exists rec. split; [assumption|]. intros ip V Nv I. exists m. split; [apply B5; assumption|assumption].
Qed.

Lemma convert_awdb6 : forall E order grow file data d0 ipList2 r line,
  (forall k m, Permutation (order k m) m) ->
  path_ext file = str ".awdb" -> aw_open data = Ok r ->
  (aNodeCount (wMeta r) * aRecordSize (wMeta r) < 2 ^ 64)%N -> aIPVersion (wMeta r) = 6%N ->
  (forall m, asked (aw_find r) IPv6zero m -> ~ is_v4 (addr m)) ->
  (forall ip net m, valid_ip ip -> ~ is_v4 (addr ip) -> LookupNetwork r ip = Ok (net, Some (VMap m)) -> ~ In (str "asn") (map fst m)) ->
  DumpFile (converterFormats E) file (Some data) (converterRule (str "default")) [] = Ok d0 ->
  (forall row, In row (dIps (contents d0)) -> Forall (no_byte x09) (fvals row)) ->
  match line with None => True | Some q => never_crashes q end ->
  exists d, DumpFile (converterFormats E) file (Some data) (converterRule (str "default")) (converterOps order grow (option_map (fun q => (q, false)) line)) = Ok d /\
    ((forall row, In row (dIps (contents d)) -> (N.of_nat (length (join x09 (fvals row))) < 65536)%N) ->
     (forall row, In row (dIps (contents d)) -> (val (nMask (cidr row)) <> 0)%N) ->
     json_ok (jMeta E) (jUnMeta E) (eNow E) (contents d) ->
     exists data2, PackBytes (converterFormats E) (str ".ipdb") d = Ok (data2, d) /\
       ((Z.of_nat (length data2) < 2 ^ 32)%Z ->
        exists q2, NewDbFromBytes (serverFormats E) ipList2 (str ".ipdb") data2 = Ok q2 /\
          forall ip, valid_ip ip -> ~ is_v4 (addr ip) ->
            exists i m i' m', QueryStr (QAwdb r) (ip_string ip) = Ok (Some i, m, None) /\
              QueryStr q2 (ip_string ip) = Ok (Some i', m', None) /\ m' <= m /\
              lined line (fun j => exists ip' i0 m0, valid_ip ip' /\ ~ is_v4 (addr ip') /\
                                      QueryStr (QAwdb r) (ip_string ip') = Ok (Some i0, m0, None) /\ j = selected (without_asn i0))
                (selected (without_asn i)) ip m' i')).
Proof.
  intros E order grow file data d0 il2 r line Perm Hp HO Hlt E6 NA Na HD HT HLn.
  change (converterRule (str "default")) with DefaultRule in *.
  destruct default_parsed as (e & Pe & Fe & Me).
  assert (exists dd, aw_dump (eFuel E) data (Some e) = Ok dd /\ d0 = fresh (spare_of E (Some e)) dd) as (dd & D0 & Ed).
  { unfold DumpFile in HD. rewrite Hp in HD. rewrite Pe in HD.
    change (GetDumpFormat (converterFormats E) (str ".awdb")) with (Some (fun data ept => fresh_of (spare_of E ept) (aw_dump (eFuel E) data ept))) in HD.
    cbv beta iota in HD. destruct (aw_dump _ _ _) as [dd| | |]; try discriminate HD. exists dd. split; [reflexivity|].
    unfold fresh_of in HD. cbn [bind apply_ops] in HD. congruence. }
  destruct (fresh_spec (spare_of E (Some e)) dd) as (EC & Lg & _).
  destruct (aw_rows_by6 _ _ _ _ _ HO Hlt E6 NA D0) as (Ef & Ev & bs & Ti & F2). cbn [out_fields] in Ef.
  assert (Ef7 : dFields dd = seven) by (rewrite Ef; exact Fe).
  rewrite <- Ed in EC, Lg.
  assert (EF : hFields d0 = seven) by (change (dFields (contents d0) = seven); rewrite EC; exact Ef7).
  assert (EV : dump_family (vIpType (hVersion d0)) = fam6).
  { change (dump_family (vIpType (dVersion (contents d0))) = fam6). rewrite EC, Ev. apply version6. assumption. }
  assert (E2 : vIpType (hVersion d0) = 2%Z).
  { change (vIpType (dVersion (contents d0)) = 2%Z). rewrite EC, Ev. unfold dVersion, aw_version, aw_iptype. cbn [vIpType]. rewrite E6. reflexivity. }
  assert (Fm4 : forall a, dumped_family (vIpType (hVersion d0)) a <-> ~ is_v4 a).
  { intros a. unfold dumped_family. rewrite E2. cbn [Z.eqb Pos.eqb negb]. rewrite <- v4b_iff. destruct (v4b a); split; intros Q; try discriminate Q; try reflexivity; try (exfalso; apply Q; reflexivity); discriminate. }
  assert (ERc : dIps (contents d0) = dIps dd) by (rewrite EC; reflexivity).
  assert (Sel : forall row b, (net_is (cidr row) b /\ length (nIP (cidr row)) = 16 /\ v4b (base b) = false /\
       exists rec, exported awFieldsMap (Some e) (dFields dd) rec (fvals row) /\
         forall ip, valid_ip ip -> ~ is_v4 (addr ip) -> in_block b (addr ip) ->
           exists m, LookupNetwork r ip = Ok (cidr row, Some (VMap m)) /\ strings_of (final_map m) = Ok rec) ->
     length (fvals row) = 7 /\
     forall ip, valid_ip ip -> in_block b (addr ip) -> ~ is_v4 (addr ip) ->
       exists i, QueryStr (QAwdb r) (ip_string ip) = Ok (Some i, prefix_len (addr ip) b, None) /\ drop_district (fval_info seven (fvals row)) = selected (without_asn i)).
  { intros row b (Hn & L4 & B4 & rec & X & G). cbn [exported] in X. apply (default_exports e _ _ _ Me Fe) in X. cbv beta zeta in X.
    rewrite X. split; [apply select7_length|].
    intros ip V B V4. destruct (G ip V V4 B) as (m & HL & HS).
    assert (AF : aw_find r ip = Ok (cidr row, rec)) by (unfold aw_find; rewrite HL; cbn [bind]; now rewrite HS).
    eexists. split.
    { rewrite C47_str by assumption. unfold DbQuery, q_query, aw_query. rewrite AF. cbn [bind triple].
      rewrite (mask_size_net _ _ Hn), L4. cbn [fst]. unfold prefix_len. destruct (v4b (addr ip)) eqn:Q4; [exfalso; apply V4, v4b_iff; exact Q4|].
      do 2 f_equal. f_equal. lia. }
    rewrite select7_info with (d := []) (l := field_value awFieldsMap rec (str "line")). f_equal.
    unfold without_asn. cbn [iCountry iProvince iCity iAsn iIsp iContinent iLine iDistrict].
    assert (forall f, assoc f awFieldsMap = Some f -> field_value awFieldsMap rec f = sget f rec) as FV.
    { intros f Hf. unfold field_value. rewrite Hf. apply assoc_sget. }
    rewrite !FV by reflexivity. f_equal.
    pose proof (sget_text m rec (str "asn") HS (strings_text _ _ HS)) as [(v & Hl & _)|[_ Q]]; [|exact Q].
    exfalso. apply (Na _ _ _ V V4 HL). destruct Hl as (m1 & m2 & -> & _). rewrite map_app. apply in_or_app. right. left. reflexivity. }
  destruct (convert_selected E order grow d0 bs il2 (fun ip i m => QueryStr (QAwdb r) (ip_string ip) = Ok (Some i, m, None)) (fun i => selected (without_asn i)) line) as (d & Ea & Pk);
    try assumption.
  { rewrite ERc. clear - F2. induction F2 as [|x y l m H F2 IH]; constructor; [apply H|assumption]. }
  { rewrite EV. assumption. }
  { rewrite E2. cbn [Z.eqb Pos.eqb negb]. clear - F2. induction F2 as [|x y l m H F2 IH]; constructor; [apply H|assumption]. }
  { apply Forall_forall. intros row I. split; [|apply HT; assumption]. rewrite ERc in I. apply In_nth_error in I as [j Hj].
    destruct (Forall2_nth _ _ _ F2 j row Hj) as (b & Hb & H). apply (Sel _ _ H). }
  { intros. congruence. }
  { rewrite ERc. intros j row b ip Hr Hb V B Fm. destruct (Forall2_nth _ _ _ F2 j row Hr) as (b' & Hb' & H).
    assert (b' = b) as -> by congruence. apply (Sel _ _ H); try assumption. apply Fm4. assumption. }
  { destruct line as [q|]; [|exact I]. split; [assumption|]. rewrite Ed. apply fresh_full. reflexivity. }
  exists d. split; [eapply apply_after; eassumption|]. intros HL HZ HJ.
  destruct (Pk HL (fun _ => HZ) HJ) as (data2 & P & Q). exists data2. split; [assumption|].
  intros Hs. destruct (Q Hs) as (q2 & O2 & Q2). exists q2. split; [assumption|].
  intros ip V V4. destruct (Q2 ip V (proj2 (Fm4 _) V4)) as (i & m & i' & m' & A1 & A2 & A3 & A4).
  exists i, m, i', m'. split; [assumption|]. split; [assumption|]. split; [assumption|].
  assert (Imp : forall x x', improved_by (fun j => exists ip' i0 m0, valid_ip ip' /\ dumped_family (vIpType (hVersion d0)) (addr ip') /\
      QueryStr (QAwdb r) (ip_string ip') = Ok (Some i0, m0, None) /\ j = selected (without_asn i0)) x x' ->
    improved_by (fun j => exists ip' i0 m0, valid_ip ip' /\ ~ is_v4 (addr ip') /\
      QueryStr (QAwdb r) (ip_string ip') = Ok (Some i0, m0, None) /\ j = selected (without_asn i0)) x x').
  { intros x0 x0' [I1 I2 I3 I4 I5 I6 I7 (n & I8 & I9)]. constructor; try assumption.
  exists n. split; [assumption|]. destruct I9 as [[I9 K]|(I9 & I10 & j & (ip' & i0 & m0 & J1 & J2 & J3) & J4)].
  - left. split; [assumption|]. destruct K as [K|K]; [left; assumption|right].
    intros j x (ip' & i0 & m0 & J1 & J2 & J3). apply K. exists ip', i0, m0. split; [assumption|]. split; [apply Fm4; assumption|assumption].
  - right. split; [assumption|]. split; [assumption|]. exists j. split; [|assumption]. exists ip', i0, m0.
    split; [assumption|]. split; [apply Fm4; assumption|assumption].
} 
  destruct line as [q|]; cbn [lined] in A4 |- *; [destruct A4; split; auto|auto].
Qed.


(** C58: converting an IPv6 awdb file whose dump never asks for an IPv4 address (C50), with the
    default rule and the default operations. *)
Theorem C58_awdb6 : forall E order grow file data d0 ipList2 r,
  (forall k m, Permutation (order k m) m) ->
  path_ext file = str ".awdb" -> aw_open data = Ok r ->
  (aNodeCount (wMeta r) * aRecordSize (wMeta r) < 2 ^ 64)%N -> aIPVersion (wMeta r) = 6%N ->
  (forall m, asked (aw_find r) IPv6zero m -> ~ is_v4 (addr m)) ->
  (forall ip net m, valid_ip ip -> ~ is_v4 (addr ip) -> LookupNetwork r ip = Ok (net, Some (VMap m)) -> ~ In (str "asn") (map fst m)) ->
  DumpFile (converterFormats E) file (Some data) (converterRule (str "default")) [] = Ok d0 ->
  (forall row, In row (dIps (contents d0)) -> Forall (no_byte x09) (fvals row)) ->
  exists d, DumpFile (converterFormats E) file (Some data) (converterRule (str "default")) (converterOps order grow None) = Ok d /\
    ((forall row, In row (dIps (contents d)) -> (N.of_nat (length (join x09 (fvals row))) < 65536)%N) ->
     (forall row, In row (dIps (contents d)) -> (val (nMask (cidr row)) <> 0)%N) ->
     json_ok (jMeta E) (jUnMeta E) (eNow E) (contents d) ->
     exists data2, PackBytes (converterFormats E) (str ".ipdb") d = Ok (data2, d) /\
       ((Z.of_nat (length data2) < 2 ^ 32)%Z ->
        exists q2, NewDbFromBytes (serverFormats E) ipList2 (str ".ipdb") data2 = Ok q2 /\
          forall ip, valid_ip ip -> ~ is_v4 (addr ip) ->
            exists i m i' m', QueryStr (QAwdb r) (ip_string ip) = Ok (Some i, m, None) /\
              QueryStr q2 (ip_string ip) = Ok (Some i', m', None) /\ m' <= m /\
              improved_by (fun j => exists ip' i0 m0, valid_ip ip' /\ ~ is_v4 (addr ip') /\
                                      QueryStr (QAwdb r) (ip_string ip') = Ok (Some i0, m0, None) /\ j = selected (without_asn i0))
                (selected (without_asn i)) i')).
Proof.
  intros E order grow file data d0 il2 r Perm Hp HO Hlt N6 NA Na HD HT.
  exact (convert_awdb6 E order grow file data d0 il2 r None Perm Hp HO Hlt N6 NA Na HD HT I).
Qed.
Print Assumptions C58_awdb6.
(** C63: ... and with a line database. *)
Theorem C63_awdb6 : forall E order grow file data d0 ipList2 r lq,
  (forall k m, Permutation (order k m) m) ->
  path_ext file = str ".awdb" -> aw_open data = Ok r ->
  (aNodeCount (wMeta r) * aRecordSize (wMeta r) < 2 ^ 64)%N -> aIPVersion (wMeta r) = 6%N ->
  (forall m, asked (aw_find r) IPv6zero m -> ~ is_v4 (addr m)) ->
  (forall ip net m, valid_ip ip -> ~ is_v4 (addr ip) -> LookupNetwork r ip = Ok (net, Some (VMap m)) -> ~ In (str "asn") (map fst m)) ->
  DumpFile (converterFormats E) file (Some data) (converterRule (str "default")) [] = Ok d0 ->
  (forall row, In row (dIps (contents d0)) -> Forall (no_byte x09) (fvals row)) -> never_crashes lq ->
  exists d, DumpFile (converterFormats E) file (Some data) (converterRule (str "default")) (converterOps order grow (Some (lq, false))) = Ok d /\
    ((forall row, In row (dIps (contents d)) -> (N.of_nat (length (join x09 (fvals row))) < 65536)%N) ->
     (forall row, In row (dIps (contents d)) -> (val (nMask (cidr row)) <> 0)%N) ->
     json_ok (jMeta E) (jUnMeta E) (eNow E) (contents d) ->
     exists data2, PackBytes (converterFormats E) (str ".ipdb") d = Ok (data2, d) /\
       ((Z.of_nat (length data2) < 2 ^ 32)%Z ->
        exists q2, NewDbFromBytes (serverFormats E) ipList2 (str ".ipdb") data2 = Ok q2 /\
          forall ip, valid_ip ip -> ~ is_v4 (addr ip) ->
            exists i m i' m', QueryStr (QAwdb r) (ip_string ip) = Ok (Some i, m, None) /\
              QueryStr q2 (ip_string ip) = Ok (Some i', m', None) /\ m' <= m /\
              improved_by (fun j => exists ip' i0 m0, valid_ip ip' /\ ~ is_v4 (addr ip') /\
                                      QueryStr (QAwdb r) (ip_string ip') = Ok (Some i0, m0, None) /\ j = selected (without_asn i0))
                (selected (without_asn i)) (without_line i') /\
              line_from lq ip m' (iCountry i') (iLine i'))).
Proof.
  intros E order grow file data d0 il2 r lq Perm Hp HO Hlt N6 NA Na HD HT HN.
  exact (convert_awdb6 E order grow file data d0 il2 r (Some lq) Perm Hp HO Hlt N6 NA Na HD HT HN).
Qed.
Print Assumptions C63_awdb6.

(* ---------- a case ---------- *)
(** China below 8000::, the USA above. *)
Definition aw_cn6 : bytes := aw_file 1 24 6 (node_bytes 24 (17%N, (17 + len recC)%N)) (recC ++ recU ++ repeat x00 2000).
Definition half0 : IPNet := mkNet IPv6zero (CIDRMask 1 128).
Definition half1 : IPNet := mkNet (x80 :: repeat x00 15) (CIDRMask 1 128).
Lemma half0_is : net_is half0 (mkBlock 0 127).
Proof. constructor; vm_compute; auto; discriminate. Qed.
Lemma half1_is : net_is half1 (mkBlock (2 ^ 127) 127).
Proof. constructor; vm_compute; auto; discriminate. Qed.
Lemma cn6_asked r : aw_open aw_cn6 = Ok r -> forall m, asked (aw_find r) IPv6zero m -> ~ is_v4 (addr m).
Proof.
  intros O m A.
  assert (Z : match aw_open aw_cn6 with Ok r => match aw_find r IPv6zero, aw_find r (x80 :: repeat x00 15) with
    | Ok (n, _), Ok (n', _) => Some (n, n') | _, _ => None end | _ => None end = Some (half0, half1)) by (vm_compute; reflexivity).
  rewrite O in Z. destruct (aw_find r IPv6zero) as [[n0 i0]| | |] eqn:F0; [|discriminate Z..].
  destruct (aw_find r (x80 :: repeat x00 15)) as [[n1 i1]| | |] eqn:F1; [|discriminate Z..].
  assert (n0 = half0) by congruence. assert (n1 = half1) by congruence. clear Z. subst n0 n1.
  assert (G : m = IPv6zero \/ m = x80 :: repeat x00 15).
  { induction A as [|m n rec b next A IH F Hn Ha Lt Ln En]; [now left|right]. destruct IH as [-> | ->].
    - rewrite F0 in F. assert (n = half0) by congruence. subst n. rewrite (net_is_fun _ _ _ Hn half0_is) in *.
      apply addr_inj; [exact Ln|right; exact Ln|]. rewrite En. vm_compute. reflexivity.
    - exfalso. rewrite F1 in F. assert (n = half1) by congruence. subst n. rewrite (net_is_fun _ _ _ Hn half1_is) in *.
      vm_compute in Lt. discriminate. }
  destruct G as [-> | ->]; vm_compute; intros [H1 H2]; [now apply H1|discriminate].
Qed.
Definition cn6_rows (line : bool) : list IpRaw :=
  [ mkRaw half0 ([str "中国"; str "浙江"; []; str "电信"; []; []; str "华东"] ++ if line then [[]] else []);
    mkRaw half1 ([str "美国"; []; []; str "电信"; []; []; []] ++ if line then [[]] else []) ].
Definition cn6_first : list IpRaw :=
  [ mkRaw half0 [str "中国"; str "浙江"; []; str "电信"; []; []; []];
    mkRaw half1 [str "美国"; []; []; []; []; []; []] ].
Definition cn6_done (line : bool) : IpData := mkData (seven ++ if line then [str "line"] else []) (mkVersion 2 2 0 (str "ipplus360") [] (if line then [str "ipplus360-0"] else [])) (cn6_rows line).
Lemma cn6_line_ok : exists r, aw_open aw_cn6 = Ok r /\ aIPVersion (wMeta r) = 6%N /\ (aNodeCount (wMeta r) * aRecordSize (wMeta r) < 2 ^ 64)%N.
Proof.
  destruct (opened_spec aw_cn6 (fun r => size_ok r && (aIPVersion (wMeta r) =? 6)%N)) as (r & O & H); [vm_compute; reflexivity|].
  apply andb_prop in H as [H1 H2]. apply N.ltb_lt in H1. apply N.eqb_eq in H2. exists r. auto.
Qed.
Lemma cn6_keys r : aw_open aw_cn6 = Ok r -> (aNodeCount (wMeta r) * aRecordSize (wMeta r) < 2 ^ 64)%N ->
  forall ip net m, valid_ip ip -> ~ is_v4 (addr ip) -> LookupNetwork r ip = Ok (net, Some (VMap m)) -> ~ In (str "asn") (map fst m).
Proof.
  intros O H1. destruct (open_reads _ r O H1) as [tbl R].
  assert (opened aw_cn6 (fun r => keys_ok (LookupNetwork r IPv6zero) half0 && keys_ok (LookupNetwork r (x80 :: repeat x00 15)) half1) = true) as K by (vm_compute; reflexivity).
  unfold opened in K. rewrite O in K. apply andb_prop in K as [K0 K1].
  assert (forall ip0 n b, valid_ip ip0 -> ~ is_v4 (addr ip0) -> keys_ok (LookupNetwork r ip0) n = true -> net_is n b ->
    forall ip net m, valid_ip ip -> ~ is_v4 (addr ip) -> in_block b (addr ip) -> LookupNetwork r ip = Ok (net, Some (VMap m)) -> ~ In (str "asn") (map fst m)) as G.
  { intros ip0 n b V0 V40 K Hn ip net m V N4 B L. destruct (LookupNetwork r ip0) as [[n0 [v0|]]| | |] eqn:L0; try discriminate K.
    destruct v0; try discriminate K. cbn [keys_ok] in K. apply andb_prop in K as [K K3]. apply andb_prop in K as [Ka Kb].
    apply bytes_eqb_iff in Ka, Kb. assert (n0 = n) as -> by (destruct n0, n; cbn in *; congruence).
    destruct (C35_network_ipv6 r tbl ip0 _ _ R V0 V40 L0) as (b0 & B1 & _ & _ & _ & B5).
    rewrite (net_is_fun _ _ _ B1 Hn) in B5. rewrite (B5 ip V N4 B) in L. injection L as <- <-.
    intros I. apply in_array_iff in I. rewrite I in K3. discriminate K3. }
  intros ip net m V V4 L.
  assert (addr ip < 2 ^ 128)%N as Lt by (apply addr_bound; assumption).
  assert (in_block (mkBlock 0 127) (addr ip) \/ in_block (mkBlock (2 ^ 127)%N 127) (addr ip)) as [B|B].
  { unfold in_block. cbn [base logsz]. replace (2 ^ 128)%N with (2 ^ 127 + 2 ^ 127)%N in Lt by reflexivity. lia. }
  - refine (G _ _ (mkBlock 0 127) _ _ K0 half0_is ip net m V V4 B L); [right; reflexivity|vm_compute; intros [H _]; now apply H].
  - refine (G _ _ (mkBlock (2 ^ 127)%N 127) _ _ K1 half1_is ip net m V V4 B L); [right; reflexivity|vm_compute; intros [_ H]; discriminate H].
Qed.
(** C58_awdb6, C63_awdb6 *)
Example C58_awdb6_case : path_ext (str "a.awdb") = str ".awdb" /\
  (exists r d0 d rl dl, aw_open aw_cn6 = Ok r /\
    (aNodeCount (wMeta r) * aRecordSize (wMeta r) < 2 ^ 64)%N /\ aIPVersion (wMeta r) = 6%N /\
    (forall m, asked (aw_find r) IPv6zero m -> ~ is_v4 (addr m)) /\
    (forall ip net m, valid_ip ip -> ~ is_v4 (addr ip) -> LookupNetwork r ip = Ok (net, Some (VMap m)) -> ~ In (str "asn") (map fst m)) /\
    DumpFile (converterFormats aw_env) (str "a.awdb") (Some aw_cn6) (converterRule (str "default")) [] = Ok d0 /\
    dIps (contents d0) = cn6_first /\
    (forall row, In row (dIps (contents d0)) -> Forall (no_byte x09) (fvals row)) /\
    DumpFile (converterFormats aw_env) (str "a.awdb") (Some aw_cn6) (converterRule (str "default")) (converterOps (fun _ m => m) (fun _ => 1) None) = Ok d /\
    contents d = cn6_done false /\
    never_crashes (QAwdb rl) /\
    DumpFile (converterFormats aw_env) (str "a.awdb") (Some aw_cn6) (converterRule (str "default")) (converterOps (fun _ m => m) (fun _ => 1) (Some (QAwdb rl, false))) = Ok dl /\
    contents dl = cn6_done true) /\
  forall b, (forall row, In row (dIps (cn6_done b)) -> (N.of_nat (length (join x09 (fvals row))) < 65536)%N /\ (val (nMask (cidr row)) <> 0)%N) /\
    json_ok (jMeta aw_env) (jUnMeta aw_env) (eNow aw_env) (cn6_done b).
Proof.
  split; [reflexivity|]. split.
  { destruct cn6_line_ok as (r & O & H6 & Hs). destruct aw_line_ok as (rl & Ol & Nc).
    assert (match DumpFile (converterFormats aw_env) (str "a.awdb") (Some aw_cn6) (converterRule (str "default")) [] with Ok d => Some (dIps (contents d)) | _ => None end = Some cn6_first) as R0
      by (vm_compute; reflexivity).
    assert (match DumpFile (converterFormats aw_env) (str "a.awdb") (Some aw_cn6) (converterRule (str "default")) (converterOps (fun _ m => m) (fun _ => 1) None) with Ok d => Some (contents d) | _ => None end = Some (cn6_done false)) as R1
      by (vm_compute; reflexivity).
    assert (match aw_open aw_line with Ok rl => match DumpFile (converterFormats aw_env) (str "a.awdb") (Some aw_cn6) (converterRule (str "default")) (converterOps (fun _ m => m) (fun _ => 1) (Some (QAwdb rl, false))) with Ok d => Some (contents d) | _ => None end | _ => None end = Some (cn6_done true)) as R2
      by (vm_compute; reflexivity).
    rewrite Ol in R2.
    destruct (DumpFile _ _ _ _ []) as [d0| | |]; try discriminate R0.
    destruct (DumpFile _ _ _ _ (converterOps _ _ None)) as [d| | |]; try discriminate R1.
    destruct (DumpFile _ _ _ _ (converterOps _ _ (Some _))) as [dl| | |] eqn:Dl; try discriminate R2.
    exists r, d0, d, rl, dl. split; [assumption|]. split; [assumption|]. split; [assumption|]. split; [apply cn6_asked; assumption|].
    split; [apply cn6_keys; assumption|]. split; [reflexivity|]. assert (dIps (contents d0) = cn6_first) as E0 by congruence. split; [assumption|]. split.
    { rewrite E0. intros row I. cbn [cn6_first In] in I. destruct I as [<-|[<-|[]]]; cbn [fvals]; repeat (constructor; [apply no_tabb_ok; vm_compute; reflexivity|]); constructor. }
    split; [reflexivity|]. split; [congruence|]. split; [assumption|]. split; [assumption|congruence]. }
  intros b. split. { intros row I. cbn [cn6_done cn6_rows dIps In] in I. destruct b, I as [<-|[<-|[]]]; vm_compute; split; (reflexivity || discriminate). }
  apply C54_json_ok; [|unfold int64; cbn; lia].
  destruct b; constructor; cbn [cn6_done seven app dFields dVersion vVersion vExtra];
    [repeat (constructor; [ascii|]); constructor|ascii|repeat (constructor; [ascii|]); constructor|repeat (constructor; [ascii|]); constructor|ascii|constructor].
Qed.

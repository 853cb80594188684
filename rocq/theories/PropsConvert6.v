(** C63: which databases can be used as line databases, and concrete cases. *)
From Verif Require Import Base NetIP IpNet Spec IpNetProofs SplitProofs IpNetProofs2 Inf Ipdb SpecIpdb SpecExport Export ExportProofs BuildProofs Bits.
From Verif Require Import TrieProofs WriterProofs ReaderProofs OpenProofs PackProofs PropsIpdb DumpProofs PropsExport PropsDump.
From Verif Require Import Json JsonProofs PropsJson.
From Verif Require Import Tables Operate SpecOperate NetText NetTextProofs Plain Memip AwDecode AwTree Facade PropsFacade2 PropsFacade3 ConvertProofs ConvertProofs2 FastOpen PropsConvert PropsConvert2 Convert PropsConvert3 PropsConvert5 PropsCases PropsFile.
From Verif Require Import SpecAw AwDecodeProofs SpecAwTree AwTreeProofs AwIterProofs PropsAwTree PropsAwQuery.
Open Scope nat_scope.

(** An ipdb file without a link into the gap behind its records (C64) is a line database. *)
Theorem C63_ipdb_line : forall E ipList data q md body meta off,
  NewDbFromBytes (serverFormats E) ipList (str ".ipdb") data = Ok q ->
  file_is data md body -> jUnMeta E md = Some meta -> assoc (str "CN") (mLanguages meta) = Some (Z.of_nat off) ->
  (0 <= mNodeCount meta)%Z -> (8 * mNodeCount meta <= Z.of_nat (length body))%Z ->
  let nc := Z.to_N (mNodeCount meta) in
  (forall i (b : bool) x, (i < nc)%N -> number_at body (8 * N.to_nat i + (if b then 4 else 0)) 4 x -> (nc < x)%N ->
     (x + 7 * nc + 2 <= N.of_nat (length body))%N \/ (N.of_nat (length data) <= x + 7 * nc)%N) ->
  never_crashes q.
Proof.
  intros E il data q md body meta off H1 H2 H3 H4 H5 H6 nc H7 ip V.
  destruct (C64_safe E il data q md body meta off H1 H2 H3 H4 H5 H6 H7 ip V) as [(i & m & H)|(e & H)]; [left|right]; eauto.
Qed.
Print Assumptions C63_ipdb_line.
(** An IPv4 awdb file that can be dumped is a line database. *)
Theorem C63_awdb_line : forall fuel data r ept d, aw_open data = Ok r ->
  (aNodeCount (wMeta r) * aRecordSize (wMeta r) < 2 ^ 64)%N -> aIPVersion (wMeta r) = 4%N ->
  aw_dump fuel data ept = Ok d -> never_crashes (QAwdb r).
Proof.
  intros fuel data r ept d O Hlt E4 D ip V. rewrite C47_str by assumption. unfold DbQuery, q_query.
  destruct (v4b (addr ip)) eqn:V4.
  - apply v4b_iff in V4.
    destruct (proj1 (C49_dump_total data r ept O Hlt ltac:(rewrite E4; discriminate)) (ex_intro _ fuel (ex_intro _ d D)) ip V V4) as [[i m] ->].
    left. cbn [triple bind]. eauto.
  - right. assert (exists e, LookupNetwork r ip = Err e) as [e H].
    { unfold LookupNetwork, lookupPointer. rewrite is_nil_to4, V4, E4 by assumption. cbn [negb].
      assert (length ip = 16) as L.
      { destruct V as [L|L]; [|assumption]. pose proof (is_nil_to4 ip (or_introl L)) as Q. rewrite V4 in Q. unfold to4 in Q. rewrite L in Q. cbn [Nat.eqb negb] in Q.
        destruct ip; [discriminate L|discriminate Q]. }
      rewrite L. destruct ip; [discriminate L|]. cbn [is_nil Nat.eqb andb N.eqb Pos.eqb bind]. eauto. }
    rewrite (proj1 (C40_error r ip e H)). cbn [triple bind]. eauto.
Qed.
Print Assumptions C63_awdb_line.

(* ---------- cases ---------- *)
(** A line database in the awdb format: Telecom below 128.0.0.0, Unicom above. *)
Definition recL1 := encode (VMap [(str "country", VStr (str "中国")); (str "line", VStr (str "电信"))]).
Definition recL2 := encode (VMap [(str "country", VStr (str "中国")); (str "line", VStr (str "联通/阿里云"))]).
Definition aw_line : bytes := aw_file 1 24 4 (node_bytes 24 (17%N, (17 + len recL1)%N)) (recL1 ++ recL2 ++ repeat x00 2000).
Definition lined_fields := [str "country"; str "province"; str "city"; str "isp"; str "asn"; str "continent"; str "district"; str "line"].
Definition lined_done : IpData := mkData lined_fields (mkVersion 1 2 0 (str "v1") [str "CN"] [str "ipplus360-0"])
  [ mkRaw (mkNet (repeat x00 10 ++ [xff; xff; x00; x00; x00; x00]) (repeat xff 12 ++ [x80; x00; x00; x00])) [str "中国"; str "浙江"; []; str "电信"; str "4134"; []; str "华东"; str "电信"];
    mkRaw (mkNet (repeat x00 10 ++ [xff; xff; x80; x00; x00; x00]) (repeat xff 12 ++ [x80; x00; x00; x00])) [str "中国"; str "广东"; []; str "电信"; str "4134"; []; str "华南"; str "联通"] ].
Definition replaced_done : IpData := mkData seven (mkVersion 1 2 0 (str "v1") [str "CN"] [str "ipplus360-0"])
  [ mkRaw (mkNet (repeat x00 10 ++ [xff; xff; x00; x00; x00; x00]) (repeat xff 12 ++ [x80; x00; x00; x00])) [str "中国"; str "浙江"; []; str "电信"; str "4134"; []; str "华东"];
    mkRaw (mkNet (repeat x00 10 ++ [xff; xff; x80; x00; x00; x00]) (repeat xff 12 ++ [x80; x00; x00; x00])) [str "中国"; str "广东"; []; str "联通"; str "4134"; []; str "华南"] ].
Lemma aw_line_ok : exists r, aw_open aw_line = Ok r /\ never_crashes (QAwdb r).
Proof.
  destruct (opened_spec aw_line (fun r => size_ok r && (aIPVersion (wMeta r) =? 4)%N)) as (r & O & H); [vm_compute; reflexivity|].
  apply andb_prop in H as [H1 H2]. apply N.ltb_lt in H1. apply N.eqb_eq in H2.
  destruct (ok_spec (aw_dump 10 aw_line None)) as [d D]; [vm_compute; reflexivity|].
  exists r. split; [assumption|]. eapply C63_awdb_line; eassumption.
Qed.
(** C63_ipdb, C63_replace: the ipdb file of C58_ipdb_case with this line database. *)
Example C63_ipdb_case : exists r, aw_open aw_line = Ok r /\ never_crashes (QAwdb r) /\
  path_ext (str "a.ipdb") = str ".ipdb" /\
  (exists d0, DumpFile (converterFormats case_env) (str "a.ipdb") (Some (packed_file imp_ipd)) (converterRule (str "default")) [] = Ok d0) /\
  (exists q1, NewDbFromBytes (serverFormats case_env) [str "1.2.3.4"] (str ".ipdb") (packed_file imp_ipd) = Ok q1) /\
  (exists d, DumpFile (converterFormats case_env) (str "a.ipdb") (Some (packed_file imp_ipd)) (converterRule (str "default")) (converterOps (fun _ m => m) (fun _ => 1) (Some (QAwdb r, false))) = Ok d /\
     contents d = lined_done) /\
  (exists d, DumpFile (converterFormats case_env) (str "a.ipdb") (Some (packed_file imp_ipd)) (converterRule (str "default")) (converterOps (fun _ m => m) (fun _ => 1) (Some (QAwdb r, true))) = Ok d /\
     contents d = replaced_done) /\
  (forall row, In row (dIps lined_done ++ dIps replaced_done) -> (N.of_nat (length (join x09 (fvals row))) < 65536)%N) /\
  json_ok (jMeta case_env) (jUnMeta case_env) (eNow case_env) lined_done /\
  json_ok (jMeta case_env) (jUnMeta case_env) (eNow case_env) replaced_done.
Proof.
  destruct imp_ok as (H1 & H2 & H3 & H4 & H5).
  assert (Z.of_nat (length (packed_file imp_ipd)) < 2 ^ 32)%Z as HS by (vm_compute; reflexivity).
  destruct (case_opens imp_ipd imp_blocks [str "1.2.3.4"] H1 H2 H3 H4 H5 HS) as (q & O & Vq & Du).
  destruct aw_line_ok as (r & Or & Nc). exists r. split; [assumption|]. split; [assumption|]. split; [reflexivity|].
  set (base := let* d := fresh_of (spare_of case_env (ParseRule (converterRule (str "default")))) (fast_dump (jUnMeta case_env) (eFuel case_env) (packed_file imp_ipd) (ParseRule (converterRule (str "default")))) in Ok d) in *.
  assert (G : forall ops x, match aw_open aw_line with Ok r => match (let* d := base in apply_ops (ops r) d) with Ok d => Some (contents d) | _ => None end | _ => None end = Some x ->
    exists d, DumpFile (converterFormats case_env) (str "a.ipdb") (Some (packed_file imp_ipd)) (converterRule (str "default")) (ops r) = Ok d /\ contents d = x).
  { intros ops x R. rewrite Or in R. rewrite Du by reflexivity. unfold base in R.
    destruct (fresh_of _ _) as [d0| | |]; cbn [bind] in R |- *; try discriminate R. destruct (apply_ops (ops r) d0) as [d| | |]; try discriminate R. exists d. split; [reflexivity|congruence]. }
  split. { assert (match base with Ok _ => true | _ => false end = true) as R by (vm_compute; reflexivity). rewrite Du by reflexivity. unfold base in R.
    destruct (fresh_of _ _) as [d0| | |]; cbn [bind] in R |- *; try discriminate R. cbn [apply_ops]. eauto. }
  split; [eauto|].
  split; [apply (G (fun r => converterOps (fun _ m => m) (fun _ => 1) (Some (QAwdb r, false)))); vm_compute; reflexivity|].
  split; [apply (G (fun r => converterOps (fun _ m => m) (fun _ => 1) (Some (QAwdb r, true)))); vm_compute; reflexivity|].
  split. { intros row I. cbn [lined_done replaced_done dIps app In] in I. destruct I as [<-|[<-|[<-|[<-|[]]]]]; vm_compute; reflexivity. }
  split; (apply C54_json_ok; [|unfold int64; cbn; lia]).
  - constructor; cbn [lined_done lined_fields dFields dVersion vVersion vExtra]; [repeat (constructor; [ascii|]); constructor|ascii|repeat (constructor; [ascii|]); constructor].
  - constructor; cbn [replaced_done seven dFields dVersion vVersion vExtra]; [repeat (constructor; [ascii|]); constructor|ascii|repeat (constructor; [ascii|]); constructor].
Qed.

(** Findings: the rows of one run of equal values share the memory of their values.  China is
    4000::/2 (Telecom) and 8000::/1 (Unicom) in the line database.  Without a rule (columns
    appended one by one, so that there is room for one more) both get the line of the last one;
    with the default rule that does not happen. *)
Definition net6 (b : byte) (m : byte) : IPNet := mkNet (b :: repeat x00 15) (m :: repeat x00 15).
Definition share_ipd : IpData := mkData [str "country"; str "province"; str "isp"] (mkVersion 2 0 0 (str "v1") [] [])
  [ mkRaw (net6 x00 xc0) [str "美国"; []; []];
    mkRaw (net6 x40 xc0) [str "中国"; str "浙江"; str "移动"];
    mkRaw (net6 x80 x80) [str "中国"; str "浙江"; str "移动"] ].
Definition share_line : IpData := mkData [str "country"; str "line"] (mkVersion 2 0 0 (str "l1") [] [])
  [ mkRaw (net6 x00 xc0) [str "美国"; []];
    mkRaw (net6 x40 xc0) [str "中国"; str "电信"];
    mkRaw (net6 x80 x80) [str "中国"; str "联通"] ].
Definition info_at (f : IpInfo -> bytes) (q : queryDb) (s : bytes) : option (bytes * nat) :=
  match QueryStr q s with Ok (Some i, m, None) => Some (f i, m) | _ => None end.
(** The whole way: the line of an address in the line database, and columns of the result. *)
Definition share_run (replace : bool) (rule : bytes) (f : IpInfo -> bytes) : option (list (option (bytes * nat))) :=
  match NewDbFromBytes (serverFormats case_env) [] (str ".ipdb") (packed_file share_line) with
  | Ok lq =>
      match DumpFile (converterFormats case_env) (str "a.ipdb") (Some (packed_file share_ipd)) rule (converterOps (fun _ m => m) (fun _ => 1) (Some (lq, replace))) with
      | Ok d =>
          match PackBytes (converterFormats case_env) (str ".ipdb") d with
          | Ok (data, _) =>
              match NewDbFromBytes (serverFormats case_env) [] (str ".ipdb") data with
              | Ok q => Some [info_at iLine lq (str "4000::"); info_at iLine lq (str "8000::"); info_at f q (str "4000::"); info_at f q (str "8000::")]
              | _ => None end
          | _ => None end
      | _ => None end
  | _ => None end.
Example C63_no_rule_shared_case : share_run false [] iLine =
  Some [Some (str "电信", 2); Some (str "联通", 1); Some (str "联通", 2); Some (str "联通", 1)].
Proof. vm_compute. reflexivity. Qed.
Example C63_rule_not_shared_case : share_run false (converterRule (str "default")) iLine =
  Some [Some (str "电信", 2); Some (str "联通", 1); Some (str "电信", 2); Some (str "联通", 1)].
Proof. vm_compute. reflexivity. Qed.
(** -line-replace writes into the shared memory with any rule. *)
Example C63_replace_shared_case : share_run true (converterRule (str "default")) iIsp =
  Some [Some (str "电信", 2); Some (str "联通", 1); Some (str "联通", 2); Some (str "联通", 1)].
Proof. vm_compute. reflexivity. Qed.

Lemma no_rule_refuted E data ldata ip : valid_ip ip -> (addr ip = 2 ^ 126)%N ->
  match NewDbFromBytes (serverFormats E) [] (str ".ipdb") ldata with
    | Ok lq =>
        match DumpFile (converterFormats E) (str "a.ipdb") (Some data) [] (converterOps (fun _ m => m) (fun _ => 1) (Some (lq, false))) with
        | Ok d =>
            match PackBytes (converterFormats E) (str ".ipdb") d with
            | Ok (data2, d') =>
                match NewDbFromBytes (serverFormats E) [] (str ".ipdb") data2 with
                | Ok q => match QueryStr lq (ip_string ip), QueryStr q (ip_string ip) with
                          | Ok (Some j, _, None), Ok (Some i, m, None) => Some (iLine j, iCountry i, iLine i, m) | _, _ => None end
                | _ => None end
            | _ => None end
        | _ => None end
    | _ => None end = Some (str "电信", str "中国", str "联通", 2) ->
exists lq d data2 q2 i m,
  NewDbFromBytes (serverFormats E) [] (str ".ipdb") ldata = Ok lq /\
  DumpFile (converterFormats E) (str "a.ipdb") (Some data) [] (converterOps (fun _ m => m) (fun _ => 1) (Some (lq, false))) = Ok d /\
  (exists d', PackBytes (converterFormats E) (str ".ipdb") d = Ok (data2, d')) /\
  NewDbFromBytes (serverFormats E) [] (str ".ipdb") data2 = Ok q2 /\
  valid_ip ip /\ QueryStr q2 (ip_string ip) = Ok (Some i, m, None) /\ ~ line_from lq ip m (iCountry i) (iLine i).
Proof.
  intros V Ea R.
  destruct (NewDbFromBytes _ _ _ ldata) as [lq| | |] eqn:E1; try discriminate R.
  destruct (DumpFile _ _ _ _ _) as [d| | |] eqn:E2; try discriminate R.
  destruct (PackBytes _ _ _) as [[data2 d']| | |] eqn:E3; try discriminate R.
  destruct (NewDbFromBytes _ _ _ data2) as [q| | |] eqn:E4; try discriminate R.
  destruct (QueryStr lq (ip_string ip)) as [[[[j|] mj] [ej|]]| | |] eqn:E5; try discriminate R.
  destruct (QueryStr q (ip_string ip)) as [[[[i|] m] [ei|]]| | |] eqn:E6; try discriminate R.
  assert (iLine j = str "电信" /\ iCountry i = str "中国" /\ iLine i = str "联通" /\ m = 2) as (R1 & R2 & R3 & ->) by (repeat split; congruence).
  exists lq, d, data2, q, i, 2.
  split; [reflexivity|]. split; [assumption|]. split; [eauto|]. split; [assumption|]. split; [assumption|]. split; [assumption|].
  intros (first & Vf & (b & Al & Eb & Hb & Pl) & Hx). rewrite R2, R3 in Hx. change (bytes_eqb (str "中国") (str "中国")) with true in Hx. cbv iota in Hx.
  assert (QueryStr lq (ip_string first) = QueryStr lq (ip_string ip)) as Eq.
  { rewrite !C47_str by assumption. apply C47_spelling; [assumption|assumption|]. rewrite <- Eb.
    rewrite Ea in *.
    assert (logsz b = 126)%N as El by (unfold prefix_len in Pl; change (v4b (2 ^ 126)) with false in Pl; cbv iota in Pl; lia).
    unfold aligned in Al. rewrite El in Al. unfold in_block in Hb. rewrite El in Hb.
    pose proof (N.div_mod (base b) (2 ^ 126) ltac:(discriminate)) as Dm. rewrite Al, N.add_0_r in Dm. set (c := (base b / 2 ^ 126)%N) in *. rewrite Dm in *.
    assert (c = 1)%N as -> by (change (2 ^ 126)%N with 85070591730234615865843651857942052864%N in Hb; lia). reflexivity. }
  rewrite Eq, E5, R1 in Hx. destruct Hx as (p & (Np & [Hp|(rest & Hp)]) & Hx).
  - subst p. destruct Hx as [[Q _]|[[_ Q]|[[Q _]|[_ Q]]]]; discriminate Q.
  - assert (In x2f (str "电信")) as I by (rewrite Hp; apply in_or_app; right; left; reflexivity).
    vm_compute in I. repeat (destruct I as [I|I]; [discriminate I|]). destruct I.
Qed.
(** So C63_ipdb does not hold without a rule. *)
Theorem C63_no_rule_refuted : exists E data ldata lq d data2 q2 ip i m,
  NewDbFromBytes (serverFormats E) [] (str ".ipdb") ldata = Ok lq /\
  DumpFile (converterFormats E) (str "a.ipdb") (Some data) [] (converterOps (fun _ m => m) (fun _ => 1) (Some (lq, false))) = Ok d /\
  (exists d', PackBytes (converterFormats E) (str ".ipdb") d = Ok (data2, d')) /\
  NewDbFromBytes (serverFormats E) [] (str ".ipdb") data2 = Ok q2 /\
  valid_ip ip /\ QueryStr q2 (ip_string ip) = Ok (Some i, m, None) /\ ~ line_from lq ip m (iCountry i) (iLine i).
Proof.
  destruct (no_rule_refuted case_env (packed_file share_ipd) (packed_file share_line) (x40 :: repeat x00 15)) as (lq & d & data2 & q & i & m & H); [right; reflexivity|vm_compute; reflexivity|vm_compute; reflexivity|].
  exists case_env, (packed_file share_ipd), (packed_file share_line), lq, d, data2, q, (x40 :: repeat x00 15), i, m. exact H.
Qed.
Print Assumptions C63_no_rule_refuted.

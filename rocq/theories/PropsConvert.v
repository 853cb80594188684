(** Property theorems C57: converting an ipdb file with the converter. *)
From Verif Require Import Base NetIP IpNet Spec IpNetProofs SplitProofs IpNetProofs2 Inf Ipdb SpecIpdb SpecExport Export ExportProofs BuildProofs Bits.
From Verif Require Import TrieProofs WriterProofs ReaderProofs OpenProofs PackProofs PropsIpdb DumpProofs PropsExport PropsDump.
From Verif Require Import Json JsonProofs PropsJson.
From Verif Require Import Tables Operate SpecOperate OperateProofs OperateProofs2 NetText NetTextProofs Plain SpecText PlainProofs PropsPlain Memip AwDecode AwTree Facade PropsFacade2 PropsFacade3 ConvertProofs FastOpen.
Open Scope nat_scope.

Lemma open_query E ipList data q : NewDbFromBytes (serverFormats E) ipList (str ".ipdb") data = Ok q ->
  exists r c, q = QIpdb r c /\ newReaderFromBytes (jUnMeta E) data = Ok r /\ forall ip, DbQuery q ip = triple (Query r [] ip).
Proof.
  unfold NewDbFromBytes.
  change (GetQueryFormat (serverFormats E) (str ".ipdb")) with (Some (fun data => let* ' (r, c) := newQuerier (jUnMeta E) data in Ok (QIpdb r c))).
  cbv beta iota. unfold newQuerier. destruct (newReaderFromBytes (jUnMeta E) data) as [r| | |] eqn:O; cbn [bind]; try discriminate.
  cbn [q_build]. destruct (BuildCache r [] (map cache_ip ipList)) as [c| | |] eqn:Bc; cbn [bind]; try discriminate.
  intros [= <-]. exists r, c. split; [reflexivity|]. split; [reflexivity|]. intros ip. unfold DbQuery, q_query.
  rewrite (C15_build_cache_transparent (jUnMeta E) data r [map cache_ip ipList] c O) by (cbn [build_caches]; rewrite Bc; reflexivity).
  destruct (Query r [] ip) as [[i m]| | |]; reflexivity.
Qed.
Lemma dumped E file data d : path_ext file = str ".ipdb" -> DumpFile (converterFormats E) file (Some data) [] [] = Ok d ->
  exists d0, Export.dump (jUnMeta E) (eFuel E) data None = Ok d0 /\ d = fresh (eGrow E) d0.
Proof.
  intros Hp. unfold DumpFile. rewrite Hp.
  change (GetDumpFormat (converterFormats E) (str ".ipdb")) with (Some (fun data ept => fresh_of (spare_of E ept) (Export.dump (jUnMeta E) (eFuel E) data ept))).
  cbv beta iota. rewrite C23_empty_rule. unfold fresh_of. destruct (Export.dump _ _ _ _) as [d0| | |]; cbn [bind apply_ops]; try discriminate.
  intros [= <-]. eauto.
Qed.
(** The family that a dump reads. *)
Definition dumped_family (iptype : Z) (a : N) : Prop := v4b a = negb (iptype =? 2)%Z.
Lemma dumped_family_range t a : (a < 2 ^ 128)%N -> dumped_family t a -> (fam_first (dump_family t) <= a < fam_end (dump_family t))%N.
Proof.
  intros H. unfold dumped_family, dump_family. destruct (t =? 2)%Z; cbn [negb fam_first fam_end fam6 fam4].
  - intros _. split; [apply N.le_0_l|assumption].
  - intros V. apply v4b_iff in V. exact V.
Qed.
Lemma dumped_family_holds t a : dumped_family t a -> holds_family t a = true.
Proof.
  unfold dumped_family, holds_family. destruct (Z.eqb_spec t 2) as [->|N]; cbn [negb]; intros ->; [reflexivity|reflexivity].
Qed.

Lemma converted E file data d ipList1 ipList2 q1 :
  path_ext file = str ".ipdb" -> DumpFile (converterFormats E) file (Some data) [] [] = Ok d ->
  NewDbFromBytes (serverFormats E) ipList1 (str ".ipdb") data = Ok q1 ->
  NoDup (hFields d) -> hFields d <> [] ->
  (forall row, In row (dIps (contents d)) -> (N.of_nat (length (join x09 (fvals row))) < 65536)%N) ->
  json_ok (jMeta E) (jUnMeta E) (eNow E) (contents d) ->
  exists data2, PackBytes (converterFormats E) (str ".ipdb") d = Ok (data2, d) /\
    ((Z.of_nat (length data2) < 2 ^ 32)%Z ->
     exists q2, NewDbFromBytes (serverFormats E) ipList2 (str ".ipdb") data2 = Ok q2 /\
       (forall ip, valid_ip ip -> dumped_family (vIpType (hVersion d)) (addr ip) ->
         QueryStr q2 (ip_string ip) = QueryStr q1 (ip_string ip) /\
         exists i m, QueryStr q1 (ip_string ip) = Ok (Some i, m, None)) /\
       (forall ip, valid_ip ip -> ~ dumped_family (vIpType (hVersion d)) (addr ip) ->
         vIpType (hVersion d) <> 2%Z -> 2 <= length (hFields d) ->
         QueryStr q2 (ip_string ip) = Ok (None, 0, Some ErrDatabaseError))).
Proof.
  rename ipList1 into il1, ipList2 into il2; intros Hp HD HQ HN HF HL HJ.
  destruct (dumped _ _ _ _ Hp HD) as (d0 & D0 & ->). destruct (fresh_spec (eGrow E) d0) as (EC & _ & _).
  destruct (open_query _ _ _ _ HQ) as (r & c & _ & O & T).
  destruct (dump_rows _ _ _ _ D0) as (r' & bs & O' & Ef & Ev & Ti & F2).
  rewrite O in O'. injection O' as <-.
  assert (EF : hFields (fresh (eGrow E) d0) = dump_fields r) by (change (dFields (contents (fresh (eGrow E) d0)) = dump_fields r); rewrite EC; exact Ef).
  assert (EV : vIpType (hVersion (fresh (eGrow E) d0)) = IpType (rMeta r)) by (change (vIpType (dVersion (contents (fresh (eGrow E) d0))) = IpType (rMeta r)); rewrite EC, Ev; reflexivity).
  rewrite EC in HL. rewrite EF in HN, HF.
  assert (HR : Forall2 row_ok (dIps (contents (fresh (eGrow E) d0))) bs).
  { rewrite EC. clear - F2 HL HF. induction F2 as [|row b rows bs H F2 IH]; constructor.
    - destruct H as [H1 H2 H3 _ (ret & Sh & Er & _)]. constructor.
      + constructor; assumption.
      + rewrite Er. unfold dump_row. unfold dump_fields in HF. intros Q. apply map_eq_nil in Q. contradiction.
      + rewrite Er. apply dump_row_tab. assumption.
      + apply HL. now left.
    - apply IH. intros. apply HL. now right. }
  destruct (C47_packed E (fresh (eGrow E) d0) bs il2 HR (tiles_disjoint _ _ _ Ti)) as (data2 & P & Q).
  { rewrite EF. apply dump_plain. } { rewrite EF. assumption. } { assumption. }
  exists data2. split; [assumption|]. intros Hs. destruct (Q Hs) as (q2 & O2 & Q2 & Q3). exists q2. split; [assumption|]. split.
  2:{ intros ip V Nf Nt L2. apply Q3; [assumption| |assumption]. intros b Ib Bb. rewrite EV in Nf, Nt. apply Nf.
      pose proof (tiles_covers _ _ _ Ti) as [_ Cv]. assert (fam_first (dump_family (IpType (rMeta r))) <= addr ip < fam_end (dump_family (IpType (rMeta r))))%N as Rg by (apply Cv; eauto).
      unfold dumped_family, dump_family in *. destruct (Z.eqb_spec (IpType (rMeta r)) 2); [contradiction|]. apply v4b_iff. exact Rg. }
  intros ip V Fm. rewrite EV in Fm.
  destruct (tiles_nth _ _ _ (addr ip) Ti) as (i & b & Hb & Bi).
  { apply dumped_family_range; [apply addr_bound; assumption|assumption]. }
  destruct (nth_error (dIps d0) i) as [row|] eqn:Hr.
  2:{ apply nth_error_None in Hr. assert (nth_error bs i <> None) as Nn by congruence. apply nth_error_Some in Nn.
      pose proof (Forall2_length F2). lia. }
  assert (dumped_row r row b) as [D1 D2 D3 _ (ret & Sh & Er & G)].
  { clear - F2 Hb Hr. revert i Hb Hr. induction F2 as [|? ? ? ? H F2 IH]; intros [|i] Hb Hr; cbn in *; try discriminate; [congruence|eauto]. }
  assert (QueryStr q1 (ip_string ip) = Ok (Some (make_info (mFields (rMeta r)) ret), prefix_len (addr ip) b, None)) as E1.
  { rewrite C47_str by assumption. rewrite T. rewrite G by assumption. reflexivity. }
  split; [|eauto]. rewrite E1.
  rewrite (Q2 i row b ip); [|rewrite EC; assumption|assumption|rewrite EF, Er; unfold dump_row, dump_fields; rewrite map_length; lia|assumption|assumption|].
  - rewrite EF, Er. rewrite dump_row_info; [reflexivity|assumption|assumption].
  - rewrite EV. apply dumped_family_holds. assumption.
Qed.

(** C57: a file dumped and packed without a rule and without operations answers every
    address of its family like the original file. *)
Theorem C57_copy : forall E file data d ipList1 ipList2 q1,
  path_ext file = str ".ipdb" -> DumpFile (converterFormats E) file (Some data) [] [] = Ok d ->
  NewDbFromBytes (serverFormats E) ipList1 (str ".ipdb") data = Ok q1 ->
  NoDup (hFields d) -> hFields d <> [] ->
  (forall row, In row (dIps (contents d)) -> (N.of_nat (length (join x09 (fvals row))) < 65536)%N) ->
  json_ok (jMeta E) (jUnMeta E) (eNow E) (contents d) ->
  exists data2, PackBytes (converterFormats E) (str ".ipdb") d = Ok (data2, d) /\
    ((Z.of_nat (length data2) < 2 ^ 32)%Z ->
     exists q2, NewDbFromBytes (serverFormats E) ipList2 (str ".ipdb") data2 = Ok q2 /\
       forall ip, valid_ip ip -> dumped_family (vIpType (hVersion d)) (addr ip) ->
         QueryStr q2 (ip_string ip) = QueryStr q1 (ip_string ip) /\
         exists i m, QueryStr q1 (ip_string ip) = Ok (Some i, m, None)).
Proof.
  intros E file data d il1 il2 q1 H1 H2 H3 H4 H5 H6 H7.
  destruct (converted E file data d il1 il2 q1 H1 H2 H3 H4 H5 H6 H7) as (data2 & P & Q). exists data2. split; [assumption|].
  intros Hs. destruct (Q Hs) as (q2 & O & A & _). eauto.
Qed.
Print Assumptions C57_copy.
(** C57: the IPv6 half of a file that holds both families does not reach the copy. *)
Theorem C57_other_family_lost : forall E file data d ipList1 ipList2 q1,
  path_ext file = str ".ipdb" -> DumpFile (converterFormats E) file (Some data) [] [] = Ok d ->
  NewDbFromBytes (serverFormats E) ipList1 (str ".ipdb") data = Ok q1 ->
  NoDup (hFields d) -> 2 <= length (hFields d) ->
  (forall row, In row (dIps (contents d)) -> (N.of_nat (length (join x09 (fvals row))) < 65536)%N) ->
  json_ok (jMeta E) (jUnMeta E) (eNow E) (contents d) -> vIpType (q_version q1) <> 2%Z ->
  exists data2, PackBytes (converterFormats E) (str ".ipdb") d = Ok (data2, d) /\
    ((Z.of_nat (length data2) < 2 ^ 32)%Z ->
     exists q2, NewDbFromBytes (serverFormats E) ipList2 (str ".ipdb") data2 = Ok q2 /\
       forall ip, valid_ip ip -> ~ is_v4 (addr ip) -> QueryStr q2 (ip_string ip) = Ok (None, 0, Some ErrDatabaseError)).
Proof.
  intros E file data d il1 il2 q1 H1 H2 H3 H4 H5 H6 H7 H8.
  assert (vIpType (hVersion d) <> 2%Z) as H9.
  { destruct (dumped _ _ _ _ H1 H2) as (d0 & D0 & ->). destruct (fresh_spec (eGrow E) d0) as (EC & _ & _).
    destruct (open_query _ _ _ _ H3) as (r & c & -> & O & T).
    destruct (dump_rows _ _ _ _ D0) as (r' & bs & O' & Ef & Ev & _). rewrite O in O'. injection O' as <-.
    change (vIpType (dVersion (contents (fresh (eGrow E) d0))) <> 2%Z). rewrite EC, Ev. exact H8. }
  destruct (converted E file data d il1 il2 q1 H1 H2 H3 H4) as (data2 & P & Q); try assumption.
  { intros Q. rewrite Q in H5. cbn in H5. lia. }
  exists data2. split; [assumption|].
  intros Hs. destruct (Q Hs) as (q2 & O & _ & A). exists q2. split; [assumption|]. intros ip V N4. apply A; try assumption.
  unfold dumped_family. destruct (Z.eqb_spec (vIpType (hVersion d)) 2); [contradiction|]. cbn [negb]. rewrite v4b_iff. assumption.
Qed.
Print Assumptions C57_other_family_lost.

(* ------------------------------------------------------------------ *)
(** A case: a file with both families and continent codes. *)
Definition case_env : env := mkEnv (marshal_meta true true) unmarshal_meta (marshal_version true true) unmarshal_version 0 [] [] 10 (fun _ => 1).
Definition conv_ipd : IpData := mkData [str "country"; str "continent_code"; str "asn"] (mkVersion 3 0 0 (str "v1") [] [])
  [ mkRaw (mkNet [x00; x00; x00; x00] [x80; x00; x00; x00]) [str "CN"; str "AS"; str "1"];
    mkRaw (mkNet [x80; x00; x00; x00] [x80; x00; x00; x00]) [str "US"; str "NA"; str "2"];
    mkRaw (mkNet (x20 :: repeat x00 15) (xe0 :: repeat x00 15)) [str "DE"; str "EU"; str "3"] ].
Definition conv_data : HData := fresh (fun _ => 1) (mkData [str "country"; str "continent"; str "asn"] (mkVersion 3 97 0 (str "v1") [str "CN"] [])
  [ mkRaw (mkNet [x00; x00; x00; x00] [x80; x00; x00; x00]) [str "CN"; str "亚洲"; str "1"];
    mkRaw (mkNet [x80; x00; x00; x00] [x80; x00; x00; x00]) [str "US"; str "北美洲"; str "2"] ]).
(** Opening and dumping a packed file, without building the bit cache. *)
Definition packed_file (ipd : IpData) : bytes := match Ipdb.pack (jMeta case_env) (eNow case_env) ipd with Ok b => b | _ => [] end.
Lemma case_opens ipd bs il : Forall2 row_ok (dIps ipd) bs -> disjoint bs -> plain_columns (dFields ipd) -> dFields ipd <> [] ->
  json_ok (jMeta case_env) (jUnMeta case_env) (eNow case_env) ipd -> (Z.of_nat (length (packed_file ipd)) < 2 ^ 32)%Z ->
  exists q, NewDbFromBytes (serverFormats case_env) il (str ".ipdb") (packed_file ipd) = Ok q /\
    vIpType (q_version q) = match fast_open (jUnMeta case_env) (packed_file ipd) with Ok r => IpType (rMeta r) | _ => 0%Z end /\
    forall file rule ops, path_ext file = str ".ipdb" ->
      DumpFile (converterFormats case_env) file (Some (packed_file ipd)) rule ops =
      let* d := fresh_of (spare_of case_env (ParseRule rule)) (fast_dump (jUnMeta case_env) (eFuel case_env) (packed_file ipd) (ParseRule rule)) in apply_ops ops d.
Proof.
  intros HR HD HC HF HJ HS. destruct (fresh_spec (fun _ => 1) ipd) as (EC & _ & _).
  destruct (C47_packed case_env (fresh (fun _ => 1) ipd) bs il) as (data & P & Q); try (rewrite EC; assumption); try assumption.
  { change (plain_columns (dFields (contents (fresh (fun _ => 1) ipd)))). rewrite EC. assumption. }
  { change (dFields (contents (fresh (fun _ => 1) ipd)) <> []). rewrite EC. assumption. }
  assert (data = packed_file ipd) as ->.
  { unfold PackBytes in P. change (GetPackFormat (converterFormats case_env) (str ".ipdb")) with (Some (packH (jMeta case_env) (eNow case_env))) in P.
    cbv beta iota in P. rewrite packH_plain in P.
    2:{ change (plain_columns (dFields (contents (fresh (fun _ => 1) ipd)))). rewrite EC. assumption. }
    rewrite EC in P. unfold packed_file. destruct (Ipdb.pack _ _ ipd) as [b| | |]; cbn [bind] in P; try discriminate P. congruence. }
  destruct (Q HS) as (q & O & _). exists q. split; [assumption|].
  destruct (open_query _ _ _ _ O) as (r & c & Eq & Or & _). split.
  { rewrite (fast_open_ok _ _ _ Or), Eq. reflexivity. }
  intros file rule ops Hp. unfold DumpFile. rewrite Hp.
  change (GetDumpFormat (converterFormats case_env) (str ".ipdb")) with
    (Some (fun data ept => fresh_of (spare_of case_env ept) (Export.dump (jUnMeta case_env) (eFuel case_env) data ept))).
  cbv beta iota. rewrite (fast_dump_ok _ _ _ _ _ Or). reflexivity.
Qed.
(** Disjoint blocks, checked. *)
Definition apart (b c : block) : bool := ((base b + 2 ^ logsz b <=? base c) || (base c + 2 ^ logsz c <=? base b))%N.
Fixpoint disjointb (bs : list block) : bool :=
  match bs with [] => true | b :: r => forallb (apart b) r && disjointb r end.
Lemma apart_ok b c a : apart b c = true -> ~ (in_block b a /\ in_block c a).
Proof.
  unfold apart, in_block. intros H [[H1 H2] [H3 H4]]. apply orb_true_iff in H.
  destruct H as [H|H]; apply N.leb_le in H; apply (N.lt_irrefl a).
  - eapply N.lt_le_trans; [exact H2|]. eapply N.le_trans; [exact H|exact H3].
  - eapply N.lt_le_trans; [exact H4|]. eapply N.le_trans; [exact H|exact H1].
Qed.
Lemma disjointb_ok bs : disjointb bs = true -> disjoint bs.
Proof.
  induction bs as [|x bs IH]; intros H i j b c N Hi Hj a [A B]; [destruct i; discriminate Hi|].
  cbn [disjointb] in H. apply andb_true_iff in H as [H1 H2]. rewrite forallb_forall in H1.
  destruct i as [|i], j as [|j]; cbn [nth_error] in Hi, Hj.
  - congruence.
  - assert (x = b) as -> by congruence. apply (apart_ok b c a); [apply H1; eapply nth_error_In; eassumption|auto].
  - assert (x = c) as -> by congruence. apply (apart_ok c b a); [apply H1; eapply nth_error_In; eassumption|auto].
  - apply (IH H2 i j b c) with (a := a); try assumption; [congruence|auto].
Qed.
Definition conv_blocks : list block := [mkBlock v4base 31; mkBlock (v4base + 2 ^ 31)%N 31; mkBlock (0x20 * 2 ^ 120)%N 125].
Lemma conv_ok : Forall2 row_ok (dIps conv_ipd) conv_blocks /\ disjoint conv_blocks /\ plain_columns (dFields conv_ipd) /\ dFields conv_ipd <> [] /\
  json_ok (jMeta case_env) (jUnMeta case_env) (eNow case_env) conv_ipd.
Proof.
  split; [constructor; [row_ok_solve|]; constructor; [row_ok_solve|]; constructor; [row_ok_solve|]; constructor|].
  split; [apply disjointb_ok; vm_compute; reflexivity|].
  split; [intros f [<-|[<-|[<-|[]]]] N H; try (apply N; reflexivity); vm_compute in H; discriminate H|].
  split; [discriminate|].
  apply C54_json_ok; [|unfold int64; cbn; lia].
  constructor; cbn [conv_ipd dFields dVersion vVersion vExtra]; [repeat (constructor; [ascii|]); constructor|ascii|constructor].
Qed.
Example C57_case : path_ext (str "a.ipdb") = str ".ipdb" /\
  DumpFile (converterFormats case_env) (str "a.ipdb") (Some (packed_file conv_ipd)) [] [] = Ok conv_data /\
  (exists q1, NewDbFromBytes (serverFormats case_env) [str "1.2.3.4"] (str ".ipdb") (packed_file conv_ipd) = Ok q1 /\ vIpType (q_version q1) = 3%Z) /\
  NoDup (hFields conv_data) /\ 2 <= length (hFields conv_data) /\
  (forall row, In row (dIps (contents conv_data)) -> (N.of_nat (length (join x09 (fvals row))) < 65536)%N) /\
  json_ok (jMeta case_env) (jUnMeta case_env) (eNow case_env) (contents conv_data).
Proof.
  destruct conv_ok as (H1 & H2 & H3 & H4 & H5).
  assert (Z.of_nat (length (packed_file conv_ipd)) < 2 ^ 32)%Z as HS by (vm_compute; reflexivity).
  destruct (case_opens conv_ipd conv_blocks [str "1.2.3.4"] H1 H2 H3 H4 H5 HS) as (q & O & Vq & Du).
  split; [reflexivity|]. split; [rewrite Du by reflexivity; vm_compute; reflexivity|]. split.
  { exists q. split; [assumption|]. rewrite Vq. vm_compute. reflexivity. }
  split. { repeat constructor; cbn; intuition discriminate. }
  split. { vm_compute. lia. }
  split. { intros row I. unfold conv_data in I. rewrite (proj1 (fresh_spec _ _)) in I. cbn [dIps In] in I. destruct I as [<-|[<-|[]]]; vm_compute; reflexivity. }
  apply C54_json_ok; [|unfold int64; cbn; lia]. unfold conv_data. rewrite (proj1 (fresh_spec _ _)).
  constructor; cbn [dFields dVersion vVersion vExtra]; [repeat (constructor; [ascii|]); constructor|ascii|constructor].
Qed.

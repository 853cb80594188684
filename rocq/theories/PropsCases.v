(** Concrete datasets and files that meet the premises of C14-C18, C21, C29, C45, C46 and C58_ipdb.
    They are not computed with the bit cache that opening a file builds (see FastOpen.v). *)
From Verif Require Import Base NetIP IpNet Spec IpNetProofs SplitProofs IpNetProofs2 Inf Ipdb SpecIpdb SpecExport Export ExportProofs BuildProofs Bits.
From Verif Require Import TrieProofs WriterProofs ReaderProofs OpenProofs PackProofs PropsIpdb DumpProofs PropsExport PropsDump.
From Verif Require Import Json JsonProofs PropsJson.
From Verif Require Import Tables Operate SpecOperate OperateProofs OperateProofs2 PropsOperate PropsOperate2 NetText Plain Memip AwDecode AwTree Facade PropsFacade2 PropsFacade3 ConvertProofs ConvertProofs2 FastOpen PropsConvert PropsConvert2 Convert PropsConvert3.
From Verif Require PropsAwQuery.
From Coq Require Import Permutation.
Open Scope nat_scope.

(** Decidable forms of coverage. *)
Fixpoint tilesb (s : N) (bs : list block) (e : N) : bool :=
  match bs with
  | [] => (s =? e)%N
  | b :: r => (base b =? s)%N && ((base b) mod (2 ^ logsz b) =? 0)%N && tilesb (s + 2 ^ logsz b)%N r e
  end.
Lemma tilesb_covers bs : forall s e, tilesb s bs e = true -> forall a, (s <= a < e)%N -> exists b, In b bs /\ in_block b a.
Proof.
  induction bs as [|b bs IH]; intros s e H a R; cbn [tilesb] in H.
  - apply N.eqb_eq in H. lia.
  - apply andb_true_iff in H as [H Ht]. apply andb_true_iff in H as [Hb _]. apply N.eqb_eq in Hb.
    destruct (N.lt_ge_cases a (s + 2 ^ logsz b)) as [L|G].
    + exists b. split; [left; reflexivity|]. unfold in_block. lia.
    + destruct (IH _ _ Ht a) as (b' & I & B); [lia|]. exists b'. split; [right; assumption|assumption].
Qed.

(** C21, C45: a database of both families, dumped with the default rule; premises of C21 and the dump. *)
Example C21_case : Forall2 row_ok (dIps conv_ipd) conv_blocks /\ disjoint conv_blocks /\ plain_columns (dFields conv_ipd) /\ dFields conv_ipd <> [] /\
  json_ok (jMeta case_env) (jUnMeta case_env) (eNow case_env) conv_ipd /\ vIpType (dVersion conv_ipd) <> 2%Z /\
  (forall a, is_v4 a -> exists b, In b conv_blocks /\ in_block b a) /\
  Forall (fun r => length (fvals r) = length (dFields conv_ipd)) (dIps conv_ipd) /\
  exports None [] /\
  (Z.of_nat (length (packed_file conv_ipd)) < 2 ^ 32)%Z /\
  exists d, Export.dump (jUnMeta case_env) 10 (packed_file conv_ipd) None = Ok d /\ vIpType (dVersion d) = 3%Z /\ length (dIps d) = 2.
Proof.
  destruct conv_ok as (H1 & H2 & H3 & H4 & H5). split; [assumption|]. split; [assumption|]. split; [assumption|]. split; [assumption|].
  split; [assumption|]. split; [discriminate|]. split.
  { intros a V. destruct (tilesb_covers [mkBlock v4base 31; mkBlock (v4base + 2 ^ 31)%N 31] v4base (v4base + 2 ^ 32)%N) with (a := a) as (b & I & B).
    - vm_compute. reflexivity.
    - exact V.
    - exists b. split; [destruct I as [<-|[<-|[]]]; [left|right; left]; reflexivity|assumption]. }
  split; [repeat constructor|]. split; [reflexivity|].
  assert (Z.of_nat (length (packed_file conv_ipd)) < 2 ^ 32)%Z as HS by (vm_compute; reflexivity). split; [assumption|].
  destruct (case_opens conv_ipd conv_blocks [] H1 H2 H3 H4 H5 HS) as (q & O & _).
  destruct (open_query _ _ _ _ O) as (r & c & Eq & Or & _). rewrite (fast_dump_ok (jUnMeta case_env) 10 (packed_file conv_ipd) None r Or).
  assert (match fast_dump (jUnMeta case_env) 10 (packed_file conv_ipd) None with Ok d => Some (vIpType (dVersion d), length (dIps d)) | _ => None end
    = Some (3%Z, 2)) as R by (vm_compute; reflexivity).
  destruct (fast_dump _ _ _ _) as [d| | |]; try discriminate R. exists d. split; [reflexivity|].
  split; congruence.
Qed.

Lemma QueryInternal_nocache r c ip b : rinv r -> QueryInternal (nocache r) c ip b = QueryInternal r c ip b.
Proof. intros H. unfold QueryInternal. rewrite find0_nocache by assumption. reflexivity. Qed.
(** C14-C18: that file opens, and finds the address 1.2.3.4 in a network of prefix length 1 (also after caching it). *)
Example C14_case : exists r c, newReaderFromBytes (jUnMeta case_env) (packed_file conv_ipd) = Ok r /\
  build_caches r [] [[Some [x01; x02; x03; x04]; None]] = Ok c /\ c <> [] /\
  (exists node, find0 r [x01; x02; x03; x04] = Ok (node, str "CN" ++ [x09] ++ str "AS" ++ [x09] ++ str "1", 1%nat)) /\
  (exists rec, findMap r [x01; x02; x03; x04] (str "CN") = Ok (mkNet [x00; x00; x00; x00] [x80; x00; x00; x00], rec)).
Proof.
  destruct conv_ok as (H1 & H2 & H3 & H4 & H5).
  assert (Z.of_nat (length (packed_file conv_ipd)) < 2 ^ 32)%Z as HS by (vm_compute; reflexivity).
  destruct (case_opens conv_ipd conv_blocks [] H1 H2 H3 H4 H5 HS) as (q & O & _).
  destruct (open_query _ _ _ _ O) as (r & c0 & Eq & Or & _). pose proof (open_rinv _ _ _ Or) as RI.
  pose proof (fast_open_ok _ _ _ Or) as FO.
  assert (F0 : match fast_open (jUnMeta case_env) (packed_file conv_ipd) with
    | Ok r => match find0 r [x01; x02; x03; x04], findMap r [x01; x02; x03; x04] (str "CN"), QueryInternal r [] [x01; x02; x03; x04] false with
              | Ok (n, s, m), Ok (net, _), Ok _ => bytes_eqb s (str "CN" ++ [x09] ++ str "AS" ++ [x09] ++ str "1") && (m =? 1) &&
                                        (bytes_eqb (nIP net) [x00; x00; x00; x00] && bytes_eqb (nMask net) [x80; x00; x00; x00])
              | _, _, _ => false end
    | _ => false end = true) by (vm_compute; reflexivity).
  rewrite FO, find0_nocache, findMap_nocache, QueryInternal_nocache in F0 by assumption.
  destruct (find0 r _) as [[[n s] m]| | |] eqn:E0; try discriminate F0.
  destruct (findMap r _ _) as [[net rec]| | |] eqn:E1; try discriminate F0.
  destruct (QueryInternal r _ _ _) as [[[n' i'] m']| | |] eqn:E2; try discriminate F0.
  apply andb_true_iff in F0 as [F0 G]. apply andb_true_iff in F0 as [F1 F2]. apply andb_true_iff in G as [G1 G2].
  apply PropsAwQuery.bytes_eqb_iff in F1, G1, G2. apply Nat.eqb_eq in F2.
  exists r, [(n', i')]. split; [assumption|]. split; [cbn [build_caches BuildCache]; rewrite E2; reflexivity|].
  split; [discriminate|]. split; [exists n; rewrite E0, F1, F2; reflexivity|]. exists rec. destruct net as [a1 a2]. cbn [nIP nMask] in G1, G2. rewrite E1, G1, G2. reflexivity.
Qed.

(** C29: the dataset of C57_default_case has a province column and no district column. *)
Example C29_case : legal imp_data /\ rectangular (contents imp_data) /\ column_at (str "province") (dFields (contents imp_data)) 1 /\
  ~ In (str "district") (dFields (contents imp_data)) /\
  exists d', AttachDistrict (fun _ => 1) imp_data = Ok d' /\
    map (fun r => nth 4 (fvals r) []) (dIps (contents d')) = [[]; str "华东"; str "华南"].
Proof.
  destruct (fresh_spec (fun _ => 1) (mkData [str "country"; str "province"; str "isp"; str "asn"] (mkVersion 1 98 0 (str "v1") [str "CN"] []) (dIps imp_ipd))) as (EC & L & _).
  fold imp_data in EC, L. split; [assumption|]. rewrite EC. split; [repeat constructor|]. split.
  { split; [reflexivity|]. intros [|j] Hj; [vm_compute; discriminate|lia]. }
  split. { cbn [dFields]. intros I. repeat (destruct I as [I|I]; [vm_compute in I; discriminate I|]). destruct I. }
  assert (match AttachDistrict (fun _ => 1) imp_data with Ok d' => Some (map (fun r => nth 4 (fvals r) []) (dIps (contents d'))) | _ => None end
    = Some [[]; str "华东"; str "华南"]) as R by (vm_compute; reflexivity).
  destruct (AttachDistrict _ _) as [d'| | |]; try discriminate R. exists d'. split; [reflexivity|]. congruence.
Qed.
(** Without province column: two columns of the same file. *)
Definition np_data : HData := fresh (fun _ => 1) (mkData [str "country"; str "isp"] (mkVersion 1 0 0 (str "v1") [] [])
  [ mkRaw (mkNet [x00; x00; x00; x00] [x80; x00; x00; x00]) [str "CN"; str "x"]; mkRaw (mkNet [x80; x00; x00; x00] [x80; x00; x00; x00]) [str "US"; str "y"] ]).
Example C29_no_province_case : ~ In (str "province") (dFields (contents np_data)) /\ ~ In (str "district") (dFields (contents np_data)) /\
  rectangular (contents np_data) /\ dFields (contents np_data) <> [] /\ plain_columns (dFields (contents np_data)) /\
  Forall2 row_ok (dIps (contents np_data)) [mkBlock v4base 31; mkBlock (v4base + 2 ^ 31)%N 31] /\
  (forall ipd, dFields ipd = dFields (contents np_data) ++ [str "district"] -> dVersion ipd = dVersion (contents np_data) ->
     json_ok (jMeta case_env) (jUnMeta case_env) (eNow case_env) ipd).
Proof.
  unfold np_data. rewrite (proj1 (fresh_spec _ _)). cbn [dFields dIps dVersion].
  split. { intros I. repeat (destruct I as [I|I]; [vm_compute in I; discriminate I|]). destruct I. }
  split. { intros I. repeat (destruct I as [I|I]; [vm_compute in I; discriminate I|]). destruct I. }
  split; [repeat constructor|]. split; [discriminate|].
  split; [intros f [<-|[<-|[]]] N H; vm_compute in H; discriminate H|].
  split; [constructor; [row_ok_solve|]; constructor; [row_ok_solve|]; constructor|].
  intros ipd F V. apply C54_json_ok; [|unfold int64; cbn; lia].
  constructor; rewrite ?F, ?V; cbn [app vVersion vExtra]; [repeat (constructor; [ascii|]); constructor|ascii|constructor].
Qed.

(** C46, the good case: two halves of the IPv6 space. *)
Definition six_ipd : IpData := mkData [str "country"; str "isp"] (mkVersion 2 0 0 (str "v1") [] [])
  [ mkRaw (mkNet (repeat x00 16) (x80 :: repeat x00 15)) [str "CN"; str "x"]; mkRaw (mkNet (x80 :: repeat x00 15) (x80 :: repeat x00 15)) [str "US"; str "y"] ].
Definition six_blocks : list block := [mkBlock 0 127; mkBlock (2 ^ 127)%N 127].
(** The bad case: the networks around and including ::ffff:0:0/96, as a split of the rest makes them. *)
Definition around : list IPNet :=
  match IPNets (mkRange (repeat x00 16) (repeat x00 10 ++ [xff; xfe; xff; xff; xff; xff])),
        IPNets (mkRange (repeat x00 9 ++ [x01] ++ repeat x00 6) (repeat xff 16)) with
  | Ok l, Ok l' => l ++ [mkNet (repeat x00 10 ++ [xff; xff; x00; x00; x00; x00]) (repeat xff 12 ++ repeat x00 4)] ++ l'
  | _, _ => [] end.
Definition bad_ipd : IpData := mkData [str "country"; str "isp"] (mkVersion 2 0 0 (str "v1") [] []) (map (fun n => mkRaw n [str "CN"; str "x"]) around).
Definition block_of (n : IPNet) : block := mkBlock (addr (nIP n)) (N.of_nat (8 * length (nIP n) - fst (mask_size (nMask n)))).

Definition row_okb (r : IpRaw) : bool :=
  let n := cidr r in let b := block_of n in
  ((length (nIP n) =? 4) || (length (nIP n) =? 16)) && (length (nMask n) =? length (nIP n)) && (logsz b <=? 8 * N.of_nat (length (nIP n)))%N &&
  (val (nMask n) =? 2 ^ (8 * N.of_nat (length (nIP n))) - 2 ^ logsz b)%N && (base b mod 2 ^ logsz b =? 0)%N && (logsz b <? 128)%N &&
  negb (length (fvals r) =? 0) && forallb (fun v => negb (existsb (byte_eqb x09) v)) (fvals r) && (N.of_nat (length (join x09 (fvals r))) <? 65536)%N.
Lemma row_okb_ok r : row_okb r = true -> row_ok r (block_of (cidr r)).
Proof.
  unfold row_okb. cbv zeta. intros H.
  repeat match goal with H : _ && _ = true |- _ => apply andb_true_iff in H as [H ?] end.
  rewrite forallb_forall in H1.
  constructor; [constructor; [constructor| |]| | |].
  - unfold valid_ip. apply orb_true_iff in H as [H|H]; apply Nat.eqb_eq in H; auto.
  - apply Nat.eqb_eq. assumption.
  - apply N.leb_le. assumption.
  - apply N.eqb_eq. assumption.
  - reflexivity.
  - apply N.eqb_eq. assumption.
  - apply N.ltb_lt. assumption.
  - intros E. rewrite E in *. discriminate.
  - apply Forall_forall. intros v I X. specialize (H1 v I). apply negb_true_iff in H1.
    assert (existsb (byte_eqb x09) v = true); [|congruence]. apply existsb_exists. exists x09. split; [assumption|reflexivity].
  - apply N.ltb_lt. assumption.
Qed.
Lemma rows_okb l : forallb row_okb l = true -> Forall2 row_ok l (map (fun r => block_of (cidr r)) l).
Proof.
  induction l as [|r l IH]; intros H; cbn [map]; constructor; cbn [forallb] in H; apply andb_true_iff in H as [H1 H2]; [apply row_okb_ok|apply IH]; assumption.
Qed.
(** Every address below 2^128 has a record with at least k values. *)
Definition all_found (bs : list block) (m : list (block * list bytes)) (k : nat) : bool :=
  tilesb 0 bs (2 ^ 128) && forallb (fun b => existsb (fun e => (base (fst e) =? base b)%N && (logsz (fst e) =? logsz b)%N) m) bs &&
  forallb (fun e => k <=? length (snd e)) m.
Lemma all_found_ok bs m k : all_found bs m k = true -> forall a, (a < 2 ^ 128)%N -> exists b row, lookup m a = Some (b, row) /\ k <= length row.
Proof.
  unfold all_found. intros H a L. apply andb_true_iff in H as [H H3]. apply andb_true_iff in H as [H1 H2].
  rewrite forallb_forall in H2, H3. destruct (tilesb_covers _ _ _ H1 a) as (b & I & B); [lia|].
  specialize (H2 b I). apply existsb_exists in H2 as (e & Ie & Ee). apply andb_true_iff in Ee as [E1 E2]. apply N.eqb_eq in E1, E2.
  unfold lookup. destruct (find (fun e0 => in_blockb (fst e0) a) m) as [[b' row]|] eqn:F.
  - exists b', row. split; [reflexivity|]. apply find_some in F as [F _]. specialize (H3 _ F). apply Nat.leb_le in H3. exact H3.
  - exfalso. assert (X := find_none _ _ F e Ie). cbv beta in X. assert (in_blockb (fst e) a = true); [|congruence].
    apply in_blockb_iff. unfold in_block in *. rewrite E1, E2. assumption.
Qed.
Lemma six_json ipd : dFields ipd = [str "country"; str "isp"] -> dVersion ipd = mkVersion 2 0 0 (str "v1") [] [] ->
  json_ok (jMeta case_env) (jUnMeta case_env) (eNow case_env) ipd.
Proof.
  intros F V. apply C54_json_ok; [|unfold int64; cbn; lia].
  constructor; rewrite ?F, ?V; cbn [app vVersion vExtra]; [repeat (constructor; [ascii|]); constructor|ascii|constructor].
Qed.
Example C46_case_good : Forall2 row_ok (dIps six_ipd) six_blocks /\ plain_columns (dFields six_ipd) /\ dFields six_ipd <> [] /\
  json_ok (jMeta case_env) (jUnMeta case_env) (eNow case_env) six_ipd /\ vIpType (dVersion six_ipd) = 2%Z /\
  (forall a, (a < 2 ^ 128)%N -> exists b row, lookup (store_all (combine six_blocks (map fvals (dIps six_ipd)))) a = Some (b, row) /\
                                      length (dFields six_ipd) <= length row) /\
  (forall b row, In (b, row) (store_all (combine six_blocks (map fvals (dIps six_ipd)))) -> base b <> v4base) /\
  exists d, Export.dump (jUnMeta case_env) 10 (packed_file six_ipd) None = Ok d /\ length (dIps d) = 2.
Proof.
  split; [constructor; [row_ok_solve|]; constructor; [row_ok_solve|]; constructor|].
  split; [intros f [<-|[<-|[]]] N H; vm_compute in H; discriminate H|]. split; [discriminate|].
  split; [apply six_json; reflexivity|]. split; [reflexivity|].
  split; [apply (all_found_ok six_blocks); vm_compute; reflexivity|].
  split.
  { assert (forallb (fun e => negb (base (fst e) =? v4base)%N) (store_all (combine six_blocks (map fvals (dIps six_ipd)))) = true) as H by (vm_compute; reflexivity).
    rewrite forallb_forall in H. intros b row I E. specialize (H _ I). cbn [fst] in H. rewrite E, N.eqb_refl in H. discriminate H. }
  assert (match Export.dump (jUnMeta case_env) 10 (packed_file six_ipd) None with Ok d => Some (length (dIps d)) | _ => None end = Some 2) as R by (vm_compute; reflexivity).
  destruct (Export.dump _ _ _ _) as [d| | |]; try discriminate R. exists d. split; [reflexivity|]. congruence.
Qed.
Example C46_case_bad : let bs := map (fun r => block_of (cidr r)) (dIps bad_ipd) in
  Forall2 row_ok (dIps bad_ipd) bs /\ plain_columns (dFields bad_ipd) /\ dFields bad_ipd <> [] /\
  json_ok (jMeta case_env) (jUnMeta case_env) (eNow case_env) bad_ipd /\ vIpType (dVersion bad_ipd) = 2%Z /\
  (forall a, (a < 2 ^ 128)%N -> exists b row, lookup (store_all (combine bs (map fvals (dIps bad_ipd)))) a = Some (b, row) /\
                                      length (dFields bad_ipd) <= length row) /\
  (exists b row, In (b, row) (store_all (combine bs (map fvals (dIps bad_ipd)))) /\ base b = v4base) /\
  Export.dump (jUnMeta case_env) 200 (packed_file bad_ipd) None = Err ErrNoSupportIPv4.
Proof.
  cbv zeta. split; [apply rows_okb; vm_compute; reflexivity|].
  split; [intros f [<-|[<-|[]]] N H; vm_compute in H; discriminate H|]. split; [discriminate|].
  split; [apply six_json; reflexivity|]. split; [reflexivity|].
  split; [apply (all_found_ok (map (fun r => block_of (cidr r)) (dIps bad_ipd))); vm_compute; reflexivity|].
  split; [|vm_compute; reflexivity].
  assert (existsb (fun e => (base (fst e) =? v4base)%N) (store_all (combine (map (fun r => block_of (cidr r)) (dIps bad_ipd)) (map fvals (dIps bad_ipd)))) = true) as H
    by (vm_compute; reflexivity).
  apply existsb_exists in H as ([b row] & I & E). exists b, row. split; [assumption|]. apply N.eqb_eq. exact E.
Qed.

(** C58_ipdb: the file of C57_default_case, converted with the default rule. *)
Definition sel_done : IpData := mkData [str "country"; str "province"; str "city"; str "isp"; str "asn"; str "continent"; str "district"] (mkVersion 1 2 0 (str "v1") [str "CN"] [])
  [ mkRaw (mkNet (repeat x00 10 ++ [xff; xff; x00; x00; x00; x00]) (repeat xff 12 ++ [x80; x00; x00; x00])) [str "中国"; str "浙江"; []; str "电信"; str "4134"; []; str "华东"];
    mkRaw (mkNet (repeat x00 10 ++ [xff; xff; x80; x00; x00; x00]) (repeat xff 12 ++ [x80; x00; x00; x00])) [str "中国"; str "广东"; []; str "电信"; str "4134"; []; str "华南"] ].
Example C58_ipdb_case : path_ext (str "a.ipdb") = str ".ipdb" /\
  (exists d0, DumpFile (converterFormats case_env) (str "a.ipdb") (Some (packed_file imp_ipd)) (converterRule (str "default")) [] = Ok d0 /\ vIpType (hVersion d0) = 1%Z) /\
  (exists q1, NewDbFromBytes (serverFormats case_env) [str "1.2.3.4"] (str ".ipdb") (packed_file imp_ipd) = Ok q1) /\
  (exists d, DumpFile (converterFormats case_env) (str "a.ipdb") (Some (packed_file imp_ipd)) (converterRule (str "default")) (converterOps (fun _ m => m) (fun _ => 1) None) = Ok d /\
     contents d = sel_done) /\
  (forall row, In row (dIps sel_done) -> (N.of_nat (length (join x09 (fvals row))) < 65536)%N) /\
  json_ok (jMeta case_env) (jUnMeta case_env) (eNow case_env) sel_done.
Proof.
  destruct imp_ok as (H1 & H2 & H3 & H4 & H5).
  assert (Z.of_nat (length (packed_file imp_ipd)) < 2 ^ 32)%Z as HS by (vm_compute; reflexivity).
  destruct (case_opens imp_ipd imp_blocks [str "1.2.3.4"] H1 H2 H3 H4 H5 HS) as (q & O & Vq & Du).
  split; [reflexivity|]. split.
  { rewrite Du by reflexivity.
    assert ((match (let* d := fresh_of (spare_of case_env (ParseRule (converterRule (str "default")))) (fast_dump (jUnMeta case_env) (eFuel case_env) (packed_file imp_ipd) (ParseRule (converterRule (str "default")))) in
                    apply_ops [] d) with
             | Ok d => Some (vIpType (hVersion d)) | _ => None end) = Some 1%Z) as R by (vm_compute; reflexivity).
    destruct (bind _ _) as [d| | |]; try discriminate R. exists d. split; [reflexivity|congruence]. }
  split; [eauto|]. split.
  { rewrite Du by reflexivity.
    assert ((match (let* d := fresh_of (spare_of case_env (ParseRule (converterRule (str "default")))) (fast_dump (jUnMeta case_env) (eFuel case_env) (packed_file imp_ipd) (ParseRule (converterRule (str "default")))) in
                    apply_ops (converterOps (fun _ m => m) (fun _ => 1) None) d) with
             | Ok d => Some (contents d) | _ => None end) = Some sel_done) as R by (vm_compute; reflexivity).
    destruct (bind _ _) as [d| | |]; try discriminate R. exists d. split; [reflexivity|congruence]. }
  split. { intros row I. cbn [sel_done dIps In] in I. destruct I as [<-|[<-|[]]]; vm_compute; reflexivity. }
  apply C54_json_ok; [|unfold int64; cbn; lia].
  constructor; cbn [sel_done dFields dVersion vVersion vExtra]; [repeat (constructor; [ascii|]); constructor|ascii|constructor].
Qed.

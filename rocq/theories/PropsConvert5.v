(** Property theorems C63: the converter with a line database. *)
From Verif Require Import Base NetIP IpNet Spec IpNetProofs SplitProofs IpNetProofs2 Inf Ipdb SpecIpdb SpecExport Export ExportProofs BuildProofs Bits.
From Verif Require Import TrieProofs WriterProofs ReaderProofs OpenProofs PackProofs PropsIpdb DumpProofs PropsExport PropsDump.
From Verif Require Import Json JsonProofs PropsJson.
From Verif Require Import Tables Operate SpecOperate OperateProofs OperateProofs2 MergeProofs MergeProofs2 PropsMerge PropsOperate PropsOperate2 PropsOperate3 NetText NetTextProofs Plain SpecText PlainProofs PropsPlain Memip AwDecode AwTree Facade PropsFacade2 PropsFacade3 ConvertProofs ConvertProofs2 FastOpen PropsConvert PropsConvert2 Convert PropsConvert3.
From Verif Require Import SpecAw AwDecodeProofs SpecAwTree AwTreeProofs AwIterProofs PropsAwTree PropsAwQuery.
From Coq Require Import Permutation.
Open Scope nat_scope.

(** C63: with the default rule and a line database every answer of China has the line that the
    line database gives for the first address of its network, every other answer has none;
    everything else is as without a line database (C58). *)
Theorem C63_ipdb : forall E order grow file data d0 ipList1 ipList2 q1 lq,
  (forall k m, Permutation (order k m) m) ->
  path_ext file = str ".ipdb" -> DumpFile (converterFormats E) file (Some data) (converterRule (str "default")) [] = Ok d0 ->
  NewDbFromBytes (serverFormats E) ipList1 (str ".ipdb") data = Ok q1 -> never_crashes lq ->
  exists d, DumpFile (converterFormats E) file (Some data) (converterRule (str "default")) (converterOps order grow (Some (lq, false))) = Ok d /\
    ((forall row, In row (dIps (contents d)) -> (N.of_nat (length (join x09 (fvals row))) < 65536)%N) ->
     (vIpType (hVersion d0) = 2%Z -> forall row, In row (dIps (contents d)) -> (val (nMask (cidr row)) <> 0)%N) ->
     json_ok (jMeta E) (jUnMeta E) (eNow E) (contents d) ->
     exists data2, PackBytes (converterFormats E) (str ".ipdb") d = Ok (data2, d) /\
       ((Z.of_nat (length data2) < 2 ^ 32)%Z ->
        exists q2, NewDbFromBytes (serverFormats E) ipList2 (str ".ipdb") data2 = Ok q2 /\
          forall ip, valid_ip ip -> dumped_family (vIpType (hVersion d0)) (addr ip) ->
            exists i m i' m', QueryStr q1 (ip_string ip) = Ok (Some i, m, None) /\
              QueryStr q2 (ip_string ip) = Ok (Some i', m', None) /\ m' <= m /\
              improved_by (fun j => exists ip' i0 m0, valid_ip ip' /\ dumped_family (vIpType (hVersion d0)) (addr ip') /\
                                      QueryStr q1 (ip_string ip') = Ok (Some i0, m0, None) /\ j = selected i0) (selected i) (without_line i') /\
              line_from lq ip m' (iCountry i') (iLine i'))).
Proof.
  intros E order grow file data d0 il1 il2 q1 lq Perm Hp HD HQ HN.
  exact (convert_ipdb E order grow file data d0 il1 il2 q1 (Some lq) Perm Hp HD HQ HN).
Qed.
Print Assumptions C63_ipdb.
Theorem C63_awdb : forall E order grow file data d0 ipList2 r lq,
  (forall k m, Permutation (order k m) m) ->
  path_ext file = str ".awdb" -> aw_open data = Ok r ->
  (aNodeCount (wMeta r) * aRecordSize (wMeta r) < 2 ^ 64)%N -> aIPVersion (wMeta r) <> 6%N ->
  (forall ip net m, valid_ip ip -> is_v4 (addr ip) -> LookupNetwork r ip = Ok (net, Some (VMap m)) -> ~ In (str "asn") (map fst m)) ->
  DumpFile (converterFormats E) file (Some data) (converterRule (str "default")) [] = Ok d0 ->
  (forall row, In row (dIps (contents d0)) -> Forall (no_byte x09) (fvals row)) -> never_crashes lq ->
  exists d, DumpFile (converterFormats E) file (Some data) (converterRule (str "default")) (converterOps order grow (Some (lq, false))) = Ok d /\
    ((forall row, In row (dIps (contents d)) -> (N.of_nat (length (join x09 (fvals row))) < 65536)%N) ->
     json_ok (jMeta E) (jUnMeta E) (eNow E) (contents d) ->
     exists data2, PackBytes (converterFormats E) (str ".ipdb") d = Ok (data2, d) /\
       ((Z.of_nat (length data2) < 2 ^ 32)%Z ->
        exists q2, NewDbFromBytes (serverFormats E) ipList2 (str ".ipdb") data2 = Ok q2 /\
          forall ip, valid_ip ip -> is_v4 (addr ip) ->
            exists i m i' m', QueryStr (QAwdb r) (ip_string ip) = Ok (Some i, m, None) /\
              QueryStr q2 (ip_string ip) = Ok (Some i', m', None) /\ m' <= m /\
              improved_by (fun j => exists ip' i0 m0, valid_ip ip' /\ is_v4 (addr ip') /\
                                      QueryStr (QAwdb r) (ip_string ip') = Ok (Some i0, m0, None) /\ j = selected (without_asn i0))
                (selected (without_asn i)) (without_line i') /\
              line_from lq ip m' (iCountry i') (iLine i'))).
Proof.
  intros E order grow file data d0 il2 r lq Perm Hp HO Hlt N6 Na HD HT HN.
  exact (convert_awdb E order grow file data d0 il2 r (Some lq) Perm Hp HO Hlt N6 Na HD HT HN).
Qed.
Print Assumptions C63_awdb.

(* ---------- line-replace ---------- *)
(** The line that belongs to a network of this country with this first address. *)
Definition line_at (q : queryDb) (country ip x : bytes) : Prop :=
  if bytes_eqb country (str "中国") then match line_query q ip with Ok i => line_name (iLine i) x | _ => x = [] end else x = [].

Lemma has_district_unique p x y : has_district p x -> has_district p y -> x = y.
Proof.
  assert (forall z, has_district p z -> z = district_of p) as H; [|intros A B; rewrite (H x A), (H y B); reflexivity].
  intros z [I|[-> N]].
  - unfold provinceDistrict in I. cbn [In] in I. repeat (destruct I as [I|I]; [pose proof (f_equal fst I) as I1; pose proof (f_equal snd I) as I2; cbn [fst snd] in I1, I2; clear I; subst p z; vm_compute; reflexivity|]). destruct I.
  - unfold district_of. destruct p as [|c p]; [reflexivity|]. destruct (assoc (c :: p) provinceDistrict) as [w|] eqn:E; [|reflexivity].
    exfalso. apply (N w). apply assoc_In. assumption.
Qed.
Lemma steps_replace order grow d0 q pi pa pp pc bs s e :
  let F := dFields (contents d0) in let rows := dIps (contents d0) in
  (forall k m, Permutation (order k m) m) -> NoDup F -> legal d0 -> rectangular (contents d0) ->
  nth_error F pi = Some (str "isp") -> nth_error F pa = Some (str "asn") -> nth_error F pp = Some (str "province") -> nth_error F pc = Some (str "country") ->
  pi <> 0 -> pa <> 0 -> rows <> [] ->
  Forall2 (fun r b => net_is (cidr r) b) rows bs -> tiles s bs e ->
  (forall ip, valid_ip ip -> answers_at (line_query q) ip) ->
  exists d F' bs', apply_ops (converterOps order grow (Some (q, true))) d0 = Ok d /\
    dFields (contents d) = F' /\ NoDup F' /\ incl F F' /\ (forall f, In f F' -> In f F \/ f = str "district") /\
    vIpType (dVersion (contents d)) = vIpType (dVersion (contents d0)) /\
    Forall2 (fun r b => net_is (cidr r) b) (dIps (contents d)) bs' /\ tiles s bs' e /\
    (forall k r b, nth_error (dIps (contents d)) k = Some r -> nth_error bs' k = Some b ->
       length (fvals r) = length F' /\
       forall a, in_block b a -> exists j r0 b0 v, nth_error rows j = Some r0 /\ nth_error bs j = Some b0 /\ in_block b0 a /\ inside b0 b /\
         row_improved None F rows (fvals r0) F' v /\
         (forall f, f <> str "isp" -> fval f F' (fvals r) = fval f F' v) /\
         ((fval (str "isp") F' (fvals r) = fval (str "isp") F' v /\ line_at q (fval (str "country") F' (fvals r)) (nIP (cidr r)) []) \/
          exists k2 r2, nth_error (dIps (contents d)) k2 = Some r2 /\ (forall f, fval f F' (fvals r2) = fval f F' (fvals r)) /\
            fval (str "isp") F' (fvals r) <> [] /\
            line_at q (fval (str "country") F' (fvals r2)) (nIP (cidr r2)) (fval (str "isp") F' (fvals r2)))).
Proof.
  intros F rows Perm ND Lg Rect Cpi Cpa Cpp Cpc Npi Npa NE Nets Ti An.
  destruct (merged order grow d0 Perm ND Lg Rect pi pa Cpi Cpa Npi Npa NE bs s e Nets Ti) as (d3 & bs3 & E3 & L3 & F3 & Rc3 & V3 & _ & N3 & T3 & Back).
  fold F in F3. fold rows in Back.
  pose proof Rc3 as Len3. unfold rectangular in Len3. rewrite F3, Forall_forall in Len3.
  assert (forall i h, nth_error F i = Some h -> column_at h (dFields (contents d3)) i) as Col.
  { intros i h H. rewrite F3. split; [assumption|]. intros j Lj Hj. pose proof (ConvertProofs2.NoDup_nth _ _ _ _ ND H Hj). subst. lia. }
  destruct (C30_replace_line (line_query q) (line_version q) d3 pc pi) as (d4 & E4 & L4 & H4 & F4 & V4 & Len4 & R4); auto.
  { intros r Ir. apply An. apply In_nth_error in Ir as [k Hk]. destruct (Forall2_nth _ _ _ N3 k r Hk) as (b & _ & Hn). apply (ni_len _ _ Hn). }
  rewrite F3 in F4. change (dFields (contents d0)) with F in F4.
  assert (Lpi : pi < length F) by (apply nth_error_Some; congruence).
  assert (Lpc : pc < length F) by (apply nth_error_Some; congruence).
  (* row by row *)
  assert (Row4 : forall k r4, nth_error (dIps (contents d4)) k = Some r4 -> exists r3 h, nth_error (dIps (contents d3)) k = Some r3 /\ nth_error (hRows d3) k = Some h /\
     cidr r4 = cidr r3 /\ length (fvals r4) = length F /\
     ((fvals r4 = fvals r3 /\ line_for (line_query q) pc r3 []) \/
      exists k2 r42 r32 x, nth_error (dIps (contents d4)) k2 = Some r42 /\ nth_error (dIps (contents d3)) k2 = Some r32 /\ cidr r42 = cidr r32 /\ fvals r42 = fvals r4 /\ fvals r32 = fvals r3 /\
        line_for (line_query q) pc r32 x /\ x <> [] /\ fvals r4 = with_col (fvals r3) pi x)).
  { intros k r4 Hk. assert (k < length (dIps (contents d3))) as Lk by (rewrite <- Len4; apply nth_error_Some; congruence).
    destruct (nth_error (dIps (contents d3)) k) as [r3|] eqn:E; [|apply nth_error_None in E; lia].
    assert (exists h, nth_error (hRows d3) k = Some h) as [h Hh].
    { unfold contents in E. cbn [dIps] in E. rewrite nth_error_map in E. destruct (nth_error (hRows d3) k); [eauto|discriminate E]. }
    exists r3, h. split; [reflexivity|]. split; [assumption|].
    assert (length (fvals r3) = length F) as Lr3 by (apply Len3; eapply nth_error_In; eassumption).
    destruct (R4 k r3 h E Hh) as (r4' & H4' & Ec & D). assert (r4' = r4) as -> by congruence. split; [assumption|].
    destruct D as [[Ev Hall]|(j & hj & rj & x & J1 & J2 & J3 & J4 & J5 & J6 & J7)].
    - split; [congruence|]. left. split; [assumption|]. apply (Hall k h r3); auto.
    - split; [rewrite J6, <- upd_with_col by lia; rewrite upd_length; assumption|]. right.
      assert (snd hj = snd h) as Es.
      { destruct (rect_len d3 hj L3 Rc3 (nth_error_In _ _ J1)) as (_ & A1 & _). destruct (rect_len d3 h L3 Rc3 (nth_error_In _ _ Hh)) as (_ & A2 & _).
        destruct (snd hj), (snd h). cbn [Operate.sLen Operate.sArr] in *. congruence. }
      assert (nth_error (hRows d4) j = Some hj) as J1' by congruence. assert (nth_error (hRows d4) k = Some h) as Hh' by congruence.
      assert (Hv : forall dd i hh, nth_error (hRows dd) i = Some hh -> nth_error (dIps (contents dd)) i = Some (mkRaw (fst hh) (view (hHeap dd) (snd hh)))).
      { intros dd i hh H. unfold contents. cbn [dIps]. rewrite nth_error_map, H. reflexivity. }
      assert (rj = mkRaw (fst hj) (view (hHeap d3) (snd hj))) as Ej by (pose proof (Hv d3 _ _ J1); congruence).
      assert (r3 = mkRaw (fst h) (view (hHeap d3) (snd h))) as E3' by (pose proof (Hv d3 _ _ Hh); congruence).
      assert (r4 = mkRaw (fst h) (view (hHeap d4) (snd h))) as E4' by (pose proof (Hv d4 _ _ Hh'); congruence).
      exists j, (mkRaw (fst hj) (view (hHeap d4) (snd hj))), rj, x. split; [apply Hv; assumption|]. split; [assumption|].
      split; [rewrite Ej; reflexivity|]. split; [rewrite E4'; cbn [fvals]; congruence|]. split; [rewrite Ej, E3'; cbn [fvals]; congruence|]. auto. }
  assert (Rc4 : rectangular (contents d4)).
  { unfold rectangular. rewrite F4. apply Forall_forall. intros r4 I4. apply In_nth_error in I4 as [k Hk]. destruct (Row4 k r4 Hk) as (r3 & h & _ & _ & _ & L & _). exact L. }
  destruct (district_step grow d4 F pp L4 Rc4 F4 ND Cpp) as (d & F' & E5 & F5 & NF' & Inc5 & Inc5' & V5 & R5).
  exists d, F', bs3. split. { unfold converterOps. rewrite apply_ops_app, E3. cbn [bind]. rewrite apply_ops_app. cbn [line_ops apply_ops bind]. rewrite E4. cbn [bind]. rewrite E5. reflexivity. }
  split; [assumption|]. split; [assumption|]. split; [assumption|]. split; [assumption|]. split; [rewrite V5, V4; exact V3|].
  split.
  { apply nth_Forall2; [rewrite <- (Forall2_length R5), Len4; apply (Forall2_length N3)|]. intros k r b H1 H2.
    destruct (Forall2_nth' _ _ _ R5 k r H1) as (r4 & Hr4 & Ec & _). destruct (Row4 k r4 Hr4) as (r3 & h & Hr3 & _ & Ec4 & _).
    destruct (Forall2_nth _ _ _ N3 k r3 Hr3) as (b' & Hb & Hn). rewrite Ec, Ec4. congruence. }
  split; [assumption|]. intros k r b H1 H2.
  destruct (Forall2_nth' _ _ _ R5 k r H1) as (r4 & Hr4 & Ec & Lr & x & Hd & Hf). destruct (Row4 k r4 Hr4) as (r3 & h & Hr3 & _ & Ec4 & Lr4 & D).
  split; [assumption|]. intros a Ba. destruct (Back k r3 b a Hr3 H2 Ba) as (j & r0 & b0 & r2 & Q1 & Q2 & Q3 & Q4 & Q5 & [T1 T2 T3' T4]).
  assert (In (str "isp") F') as Ii by (apply Inc5; eapply nth_error_In; eassumption). destruct (In_nth_error _ _ Ii) as [pi' Hpi'].
  assert (pi' < length F') as Lpi' by (apply nth_error_Some; congruence).
  set (v := with_col (fvals r) pi' (fval (str "isp") F (fvals r3))).
  assert (Hv : forall f, fval f F' v = if bytes_eqb f (str "isp") then fval (str "isp") F (fvals r3) else fval f F' (fvals r)).
  { intros f. apply fval_with_col; [assumption|assumption|lia]. }
  assert (H43 : forall f, f <> str "isp" -> fval f F (fvals r4) = fval f F (fvals r3)).
  { intros f Nf. destruct D as [[Ev _]|(k2 & r42 & r32 & y & _ & _ & _ & _ & _ & _ & _ & Ev)]; rewrite Ev; [reflexivity|].
    rewrite (fval_with_col F pi (str "isp")); [|assumption|assumption|rewrite (Len3 r3) by (eapply nth_error_In; eassumption); assumption].
    destruct (bytes_eqb_spec f (str "isp")); [contradiction|reflexivity]. }
  assert (Hother : forall f, f <> str "isp" -> f <> str "district" -> fval f F' v = fval f F (fvals r2)).
  { intros f Nf Nd. rewrite Hv. destruct (bytes_eqb_spec f (str "isp")); [contradiction|]. rewrite Hf. destruct (bytes_eqb_spec f (str "district")); [contradiction|].
    rewrite H43 by assumption. congruence. }
  exists j, r0, b0, v. do 4 (split; [assumption|]). split; [|split].
  - constructor.
    + intros f Nf Nd _. rewrite (Hother f Nf Nd). apply T3'. assumption.
    + intros y Q. discriminate Q.
    + rewrite (Hother (str "province")) by discriminate. rewrite (Hv (str "district")). change (bytes_eqb (str "district") (str "isp")) with false. cbv iota.
      rewrite (Hf (str "district")), bytes_eqb_refl. rewrite Q5. rewrite <- (H43 (str "province")) by discriminate. exact Hd.
    + rewrite (Hv (str "isp")), bytes_eqb_refl, <- Q5. exact T4.
  - intros f Nf. rewrite Hv. destruct (bytes_eqb_spec f (str "isp")); [contradiction|reflexivity].
  - assert (CtryR : fval (str "country") F' (fvals r) = nth pc (fvals r3) []).
    { rewrite (Hf (str "country")). change (bytes_eqb (str "country") (str "district")) with false. cbv iota. rewrite H43 by discriminate. apply fval_at; assumption. }
    destruct D as [[Ev Hl]|(k2 & r42 & r32 & y & K1 & K2 & K3 & K4 & K5 & K6 & K7 & K8)].
    + left. split.
      * rewrite (Hf (str "isp")), (Hv (str "isp")), bytes_eqb_refl. change (bytes_eqb (str "isp") (str "district")) with false. cbv iota. congruence.
      * unfold line_at. rewrite CtryR, Ec, Ec4. exact Hl.
    + right. destruct (Forall2_nth _ _ _ R5 k2 r42 K1) as (r' & Hr' & Ec' & Lr' & x' & Hd' & Hf').
      assert (Same : forall f, fval f F' (fvals r') = fval f F' (fvals r)).
      { intros f. rewrite Hf', Hf, K4. destruct (bytes_eqb f (str "district")); [|reflexivity].
        rewrite K4 in Hd'. eapply has_district_unique; eassumption. }
      assert (Isp : fval (str "isp") F' (fvals r) = y).
      { rewrite (Hf (str "isp")). change (bytes_eqb (str "isp") (str "district")) with false. cbv iota. rewrite K8.
        rewrite (fval_with_col F pi (str "isp")); [|assumption|assumption|rewrite (Len3 r3) by (eapply nth_error_In; eassumption); assumption]. rewrite bytes_eqb_refl. reflexivity. }
      exists k2, r'. split; [assumption|]. split; [assumption|]. split; [congruence|]. rewrite !Same, Isp.
      unfold line_at. rewrite CtryR, Ec', K3, <- K5. exact K6.
Qed.

(* ---------- specification ---------- *)
(** i with another operator *)
Definition with_isp (i : IpInfo) (x : bytes) : IpInfo :=
  mkInfo (iCountry i) (iDistrict i) (iProvince i) (iCity i) (iAsn i) x (iContinent i) (iLine i).

(** abroad nothing changes *)
Lemma replace_abroad : forall lq (i0 i' : IpInfo) (seen : bytes -> nat -> Prop) ip m, i' = with_isp i0 (iIsp i') ->
  ((iIsp i' = iIsp i0 /\ line_from lq ip m (iCountry i') []) \/
   (iIsp i' <> [] /\ exists ip2 m2, seen ip2 m2 /\ line_from lq ip2 m2 (iCountry i') (iIsp i'))) ->
  iCountry i0 <> str "中国" -> i' = i0.
Proof.
  intros lq i0 i' seen ip m E D Nc. assert (iCountry i' = iCountry i0) as Ec by (rewrite E; reflexivity).
  destruct D as [[Q _]|(Nx & ip2 & m2 & _ & f & _ & _ & H)].
  - rewrite Q in E. rewrite E. destruct i0. reflexivity.
  - exfalso. rewrite Ec in H. destruct (bytes_eqb_spec (iCountry i0) (str "中国")); [contradiction|]. contradiction.
Qed.

Lemma abroad_first : forall A B : Prop, (B -> A) -> B -> A /\ B.
Proof. tauto. Qed.

(** C63: with -line-replace only the operator may differ from what the converter answers without
    a line database, and only in China: it stays when the line database has no line for the
    first address of the network, otherwise it is the line that the line database has for the
    first address of some network with exactly this answer (not necessarily the network of the
    address: C30_merged_rows_refuted). *)
Theorem C63_replace : forall E order grow file data d0 ipList1 ipList2 q1 lq,
  (forall k m, Permutation (order k m) m) ->
  path_ext file = str ".ipdb" -> DumpFile (converterFormats E) file (Some data) (converterRule (str "default")) [] = Ok d0 ->
  NewDbFromBytes (serverFormats E) ipList1 (str ".ipdb") data = Ok q1 -> never_crashes lq ->
  exists d, DumpFile (converterFormats E) file (Some data) (converterRule (str "default")) (converterOps order grow (Some (lq, true))) = Ok d /\
    ((forall row, In row (dIps (contents d)) -> (N.of_nat (length (join x09 (fvals row))) < 65536)%N) ->
     (vIpType (hVersion d0) = 2%Z -> forall row, In row (dIps (contents d)) -> (val (nMask (cidr row)) <> 0)%N) ->
     json_ok (jMeta E) (jUnMeta E) (eNow E) (contents d) ->
     exists data2, PackBytes (converterFormats E) (str ".ipdb") d = Ok (data2, d) /\
       ((Z.of_nat (length data2) < 2 ^ 32)%Z ->
        exists q2, NewDbFromBytes (serverFormats E) ipList2 (str ".ipdb") data2 = Ok q2 /\
          forall ip, valid_ip ip -> dumped_family (vIpType (hVersion d0)) (addr ip) ->
            exists i m i0 i' m', QueryStr q1 (ip_string ip) = Ok (Some i, m, None) /\
              QueryStr q2 (ip_string ip) = Ok (Some i', m', None) /\ m' <= m /\
              improved_by (fun j => exists ip' i0 m0, valid_ip ip' /\ dumped_family (vIpType (hVersion d0)) (addr ip') /\
                                      QueryStr q1 (ip_string ip') = Ok (Some i0, m0, None) /\ j = selected i0) (selected i) i0 /\
              i' = with_isp i0 (iIsp i') /\ (iCountry i0 <> str "中国" -> i' = i0) /\
              ((iIsp i' = iIsp i0 /\ line_from lq ip m' (iCountry i') []) \/
               (iIsp i' <> [] /\ exists ip2 m2, valid_ip ip2 /\ dumped_family (vIpType (hVersion d0)) (addr ip2) /\
                  QueryStr q2 (ip_string ip2) = Ok (Some i', m2, None) /\ line_from lq ip2 m2 (iCountry i') (iIsp i'))))).
Proof.
  intros E order grow file data d0 il1 il2 q1 lq Perm Hp HD HQ HN.
  destruct (ipdb_source E file data d0 il1 q1 Hp HD HQ) as (bs & Lg & EF & Fl & Nets & Ti & Fb & Good & Row).
  set (t := vIpType (hVersion d0)) in *. set (rows := dIps (contents d0)) in *.
  destruct (steps_replace order grow d0 lq 3 4 1 0 bs (fam_first (dump_family t)) (fam_end (dump_family t))) as (d & F' & bs' & Ea & EF' & NF' & Inc & Inc' & EV' & Nets' & Ti' & Rows);
    try (change (dFields (contents d0)) with (hFields d0); rewrite EF); try assumption; try discriminate; try reflexivity.
  { exact seven_nodup. }
  { unfold rectangular. change (dFields (contents d0)) with (hFields d0). rewrite EF. eapply Forall_impl; [|exact Good]. intros row [H _]. exact H. }
  { fold rows. intros Q. rewrite Q in Nets. apply Forall2_length in Nets. destruct bs as [|b1 bs1]; [|discriminate].
    cbn [tiles] in Ti. unfold dump_family in Ti. destruct (t =? 2)%Z; vm_compute in Ti; discriminate Ti. }
  { intros ip V. apply line_query_ok; assumption. }
  change (dFields (contents d0)) with (hFields d0) in Inc, Inc', Rows. rewrite EF in Inc, Inc', Rows. fold rows in Rows.
  pose proof (tiles_covers _ _ _ Ti') as [Al' _].
  assert (Tabv : forall row f, In row rows -> no_byte x09 (fval f seven (fvals row))).
  { intros row f I. rewrite Forall_forall in Good. apply no_tab_fval, Good, I. }
  assert (Tabs : forall k r b, nth_error (dIps (contents d)) k = Some r -> nth_error bs' k = Some b ->
     forall f, f <> str "isp" -> no_byte x09 (fval f F' (fvals r))).
  { intros k r b Hr Hb f Nf. destruct (Rows k r b Hr Hb) as [_ Hsrc]. destruct (Hsrc (base b)) as (j & r0 & b0 & v & H1 & _ & _ & _ & [I1 _ I2 _] & Hv & _); [apply in_block_base|].
    apply nth_error_In in H1. rewrite Hv by assumption. destruct (bytes_eqb_spec f (str "district")) as [->|Nd]; [eapply district_tab; exact I2|].
    eapply normal_name_tab; [apply I1; auto|apply Tabv; assumption]. }
  assert (LineTab : forall c ip x, line_at lq c ip x -> no_byte x09 x).
  { intros c ip x Hx. unfold line_at in Hx. destruct (bytes_eqb _ _); [|subst x; intros []]. destruct (line_query lq ip); [eapply line_name_tab; exact Hx|subst x; intros []..]. }
  exists d. split; [eapply apply_after; eassumption|]. intros HL HZ HJ.
  destruct (pack_rows E d t F' bs' il2) as (data2 & P & Q); try assumption.
  { intros f If. destruct (Inc' f If) as [I| ->]; [apply seven_common; assumption|]. eexists. unfold CommonFieldsMap. in_common. }
  { intros Z. assert (In (str "country") F') as I by (apply Inc; left; reflexivity). rewrite Z in I. destruct I. }
  { intros row Ir. apply In_nth_error in Ir as [k Hr]. destruct (Forall2_nth _ _ _ Nets' k row Hr) as (b & Hb & Hn).
    destruct (Rows k row b Hr Hb) as [Hlen Hsrc]. split; [assumption|].
    rewrite (fval_map F' (fvals row) NF' Hlen). apply Forall_forall. intros v Iv. apply in_map_iff in Iv as (f & <- & If).
    destruct (bytes_eqb_spec f (str "isp")) as [->|Ni]; [|eapply Tabs; eassumption].
    destruct (Hsrc (base b)) as (j & r0 & b0 & v & H1 & _ & _ & _ & [_ _ _ (n & I3 & I4)] & _ & [[Ev _]|(k2 & r2 & _ & Same & _ & Hl)]); [apply in_block_base| |].
    - apply nth_error_In in H1. rewrite Ev. destruct I4 as [[-> _]|[_ [M _]]]; [eapply normal_name_tab; [exact I3|apply Tabv; assumption]|apply operator_tab; assumption].
    - rewrite <- Same. eapply LineTab. exact Hl. }
  exists data2. split; [assumption|]. intros Hs. destruct (Q Hs) as (q2 & O2 & Q2). exists q2. split; [assumption|].
  intros ip V Fm. destruct (Q2 ip V Fm) as (k & row & b & Hr & Hb & Bi & A2).
  destruct (Forall2_nth _ _ _ Nets' k row Hr) as (b' & Hb' & Hn). assert (b' = b) as -> by congruence. clear Hb'.
  destruct (Rows k row b Hr Hb) as [Hlen Hsrc].
  destruct (Hsrc (addr ip) Bi) as (j & r0 & b0 & v & H1 & H2 & B0 & Ins & Ri & Hv & D).
  destruct (Row j r0 b0 ip H1 H2 V B0 Fm) as (i & Hi & Ei).
  assert (From : forall c ip2 rw bb x, net_is (cidr rw) bb -> aligned bb -> in_block bb (addr ip2) -> line_at lq c (nIP (cidr rw)) x ->
     line_from lq ip2 (prefix_len (addr ip2) bb) c x).
  { intros c ip2 rw bb x Hnb Abb Bbb Hl. exists (nIP (cidr rw)). pose proof (ni_len _ _ Hnb) as Vn. split; [assumption|]. split.
    { exists bb. split; [assumption|]. split; [apply (ni_base _ _ Hnb)|]. auto. }
    unfold line_at in Hl. destruct (bytes_eqb _ _); [|assumption]. apply line_query_str; assumption. }
  assert (forall k b, nth_error bs' k = Some b -> aligned b) as Al by (intros k' b' Hk; rewrite Forall_forall in Al'; apply Al'; eapply nth_error_In; eassumption).
  exists i, (prefix_len (addr ip) b0), (shown_info F' v), (shown_info F' (fvals row)), (prefix_len (addr ip) b).
  split; [assumption|]. split; [assumption|]. split; [apply inside_prefix; assumption|]. split.
  { rewrite <- Ei. exact (row_info t rows bs (fun ip i m => QueryStr q1 (ip_string ip) = Ok (Some i, m, None)) selected r0 None F' v Nets Ti Fb ltac:(intros; congruence) Row Ri). }
  assert (shown_info F' (fvals row) = with_isp (shown_info F' v) (iIsp (shown_info F' (fvals row)))) as EW.
  { unfold with_isp, shown_info. cbn [iCountry iContinent iAsn iLine iProvince iCity iDistrict iIsp]. 
    rewrite (Hv (str "country")), (Hv (str "continent")), (Hv (str "asn")), (Hv (str "line")), (Hv (str "province")), (Hv (str "city")), (Hv (str "district")) by discriminate. reflexivity. }
  split; [exact EW|]. apply abroad_first.
  { intros G Nc. refine (replace_abroad lq _ _ (fun ip2 m2 => True) ip _ EW _ Nc). destruct G as [G|(G1 & ip2 & m2 & _ & _ & _ & G2)]; [left; exact G|right; split; [exact G1|eauto]]. }
  cbn [shown_info iIsp iCountry]. destruct D as [[Ev Hl]|(k2 & r2 & K1 & Same & Nx & Hl)].
  - left. split; [assumption|]. eapply From; [exact Hn|eapply Al; eassumption|exact Bi|exact Hl].
  - right. split; [assumption|]. destruct (Forall2_nth _ _ _ Nets' k2 r2 K1) as (b2 & Hb2 & Hn2).
    pose proof (ni_len _ _ Hn2) as V2. pose proof (ni_base _ _ Hn2) as Eb2.
    assert (in_block b2 (addr (nIP (cidr r2)))) as B2 by (rewrite <- Eb2; apply in_block_base).
    assert (dumped_family t (addr (nIP (cidr r2)))) as Fm2.
    { destruct (Rows k2 r2 b2 K1 Hb2) as [_ Hs2]. destruct (Hs2 (base b2)) as (j2 & r02 & b02 & _ & _ & J2 & J3 & J4 & _); [apply in_block_base|].
      unfold dumped_family. rewrite <- Eb2. assert (base b02 = base b2) as <-; [|rewrite Forall_forall in Fb; apply Fb; eapply nth_error_In; eassumption].
      pose proof (J4 (base b02) (in_block_base b02)) as X. unfold in_block in J3, X. lia. }
    destruct (Q2 _ V2 Fm2) as (k3 & r3 & b3 & K3 & Hb3 & Bi3 & A3).
    assert (k3 = k2) as ->.
    { destruct (Nat.eq_dec k3 k2) as [|Nk]; [assumption|exfalso]. apply (tiles_disjoint _ _ _ Ti' k3 k2 b3 b2 Nk Hb3 Hb2 (addr (nIP (cidr r2)))). auto. }
    assert (r3 = r2) as -> by congruence. assert (b3 = b2) as -> by congruence.
    assert (shown_info F' (fvals r2) = shown_info F' (fvals row)) as Es by (unfold shown_info; rewrite !Same; reflexivity).
    exists (nIP (cidr r2)), (prefix_len (addr (nIP (cidr r2))) b2). split; [assumption|]. split; [assumption|]. split; [rewrite A3, Es; reflexivity|].
    rewrite <- !Same. eapply From; [exact Hn2|eapply Al; eassumption|exact B2|exact Hl].
Qed.
Print Assumptions C63_replace.

(** Property theorems C68: a database file through the .memip format and back. *)
From Verif Require Import Base NetIP IpNet Spec IpNetProofs SplitProofs IpNetProofs2 Inf Ipdb SpecIpdb SpecExport Export Bits.
From Verif Require Import TrieProofs WriterProofs ReaderProofs OpenProofs PackProofs PropsIpdb ExportProofs PropsExport.
From Verif Require Import Tables Operate SpecOperate NetText NetTextProofs.
From Verif Require OperateProofs2 PropsDump PlainProofs MemipProofs Plain.
From Verif Require Import Memip SpecMemip PropsMemip.
From Verif Require Import Json JsonProofs PropsJson.
From Verif Require Import Facade PropsFacade PropsFacade2 PropsFacade3 ConvertProofs FastOpen PropsConvert PropsConvert7.
Open Scope nat_scope.

(** What the .memip format leaves of an answer; city: the city. *)
Definition mem_answer (city : bytes) (i : IpInfo) : IpInfo :=
  let province := or_default (Some (iProvince i)) in
  mkInfo (or_default (Some (iCountry i)))
    (if in_array province [str "香港"; str "澳门"; str "台湾"] then dflt else or_default (Some (iDistrict i)))
    province (or_default (Some city)) [] (isp_class (or_default (Some (iIsp i)))) (or_default (Some (iContinent i))) [].

Lemma first_col f names fields row : NoDup fields -> length row = length fields ->
  (forall x, In x fields -> in_array x names = true -> x = f) -> in_array f names = true ->
  or_default (first_column f fields row) = or_default (Some (column names fields row)).
Proof.
  intros N L H Hf. revert row L. induction N as [|g fields Ng N IH]; intros [|v row] L; cbn [length] in L; try discriminate; [reflexivity|].
  cbn [first_column]. unfold column. cbn [combine filter fst]. destruct (bytes_eqb_spec g f) as [->|Ne].
  - rewrite Hf. cbn [map snd].
    assert (forall row, filter (fun fv : bytes * bytes => in_array (fst fv) names) (combine fields row) = []) as ->; [|reflexivity].
    assert (forall x, In x fields -> in_array x names = false) as Hn.
    { intros x Ix. destruct (in_array x names) eqn:E; [|reflexivity]. exfalso. assert (x = f) as -> by (apply H; [now right|assumption]). contradiction. }
    clear - Hn. induction fields as [|x fields IH]; intros [|w row]; try reflexivity. cbn [combine filter fst]. rewrite (Hn x (or_introl eq_refl)).
    apply IH. intros y Iy. apply Hn. now right.
  - destruct (in_array g names) eqn:E; [exfalso; apply Ne; apply H; [now left|assumption]|].
    apply IH; [|lia]. intros x Ix. apply H. now right.
Qed.
Lemma continent_default v : continent_name v = v -> continent_name (or_default (Some v)) = or_default (Some v).
Proof.
  intros H. unfold or_default. destruct (bytes_eqb v []); [reflexivity|]. destruct (bytes_eqb (firstn _ v) _); [reflexivity|]. exact H.
Qed.
Lemma column_continent fields row : NoDup fields -> length row = length fields -> (forall x, In x fields -> in_array x [str "continent"; str "continent_code"] = true -> x = str "continent") ->
  show_continent fields row = row -> continent_name (column [str "continent"; str "continent_code"] fields row) = column [str "continent"; str "continent_code"] fields row.
Proof.
  intros N L H S. revert row L S. induction N as [|g fields Ng N IH]; intros [|v row] L S; cbn [length] in L; try discriminate; [reflexivity|].
  cbn [show_continent] in S. unfold column. cbn [combine filter fst]. destruct (in_array g _) eqn:E.
  - injection S as S. cbn [map snd].
    assert (filter (fun fv : bytes * bytes => in_array (fst fv) [str "continent"; str "continent_code"]) (combine fields row) = []) as ->; [|exact S].
    assert (g = str "continent") as -> by (apply H; [now left|assumption]).
    assert (forall x, In x fields -> in_array x [str "continent"; str "continent_code"] = false) as Hn.
    { intros x Ix. destruct (in_array x _) eqn:E2; [|reflexivity]. exfalso. assert (x = str "continent") as -> by (apply H; [now right|assumption]). contradiction. }
    clear - Hn. revert row. induction fields as [|x fields IH]; intros [|w row]; try reflexivity. cbn [combine filter fst]. rewrite (Hn x (or_introl eq_refl)).
    apply IH. intros y Iy. apply Hn. now right.
  - injection S as S. apply IH; [|lia|assumption]. intros x Ix. apply H. now right.
Qed.
Lemma dump_names r f g : In (f, g) CommonFieldsMap -> forall x, In x (dump_fields r) -> in_array x [f; g] = true -> x = f.
Proof. intros I x Ix Hx. apply ExtKeys_common in Ix as (g' & Ig & _). exact (proj1 (common_name f g x g' I Ig Hx)). Qed.
Lemma dump_name r f : In (f, f) CommonFieldsMap -> forall x, In x (dump_fields r) -> in_array x [f] = true -> x = f.
Proof. intros I x Ix Hx. unfold in_array in Hx. cbn [existsb] in Hx. rewrite orb_false_r in Hx. destruct (bytes_eqb_spec x f); [assumption|discriminate]. Qed.

Lemma mem_row a b c d e f : row_info memFields [a; b; c; d; e; f] = mkInfo e c b a [] d (continent_name f) [].
Proof. reflexivity. Qed.
(** The answer that belongs to the view of a dumped row. *)
Lemma view_answer r ret c : shows r ret -> NoDup (dump_fields r) ->
  row_info memFields (or_default (Some c) :: uncity (memip_view (dump_fields r) (dump_row r ret))) = mem_answer c (make_info (mFields (rMeta r)) ret) /\
  nth 0 (memip_view (dump_fields r) (dump_row r ret)) [] = or_default (Some (iCity (make_info (mFields (rMeta r)) ret))).
Proof.
  intros Sh N. pose proof (dump_continent r ret Sh N) as SC. rewrite <- (dump_row_info r ret Sh N).
  set (fs := dump_fields r) in *. set (row := dump_row r ret) in *.
  assert (length row = length fs) as L by (unfold row, dump_row; apply map_length).
  assert (FC : forall f g, In (f, g) CommonFieldsMap -> or_default (first_column f fs row) = or_default (Some (column [f; g] fs row))).
  { intros f g I. apply first_col; try assumption; [apply dump_names; assumption|]. unfold in_array. cbn [existsb]. rewrite bytes_eqb_refl. reflexivity. }
  assert (F1 : forall f, In (f, f) CommonFieldsMap -> or_default (first_column f fs row) = or_default (Some (column [f] fs row))).
  { intros f I. apply first_col; try assumption; [apply dump_name; assumption|]. unfold in_array. cbn [existsb]. rewrite bytes_eqb_refl. reflexivity. }
  unfold memip_view, uncity. cbn [skipn nth].
  rewrite (FC (str "province") (str "region_name")) by in_common. rewrite (F1 (str "district")) by in_common.
  rewrite (FC (str "isp") (str "isp_domain")) by in_common. rewrite (FC (str "country") (str "country_name")) by in_common.
  rewrite (FC (str "continent") (str "continent_code")) by in_common. rewrite (FC (str "city") (str "city_name")) by in_common.
  unfold row_info at 2 3. rewrite SC. unfold mem_answer. cbn [iCountry iDistrict iProvince iCity iAsn iIsp iContinent iLine].
  split; [|reflexivity].
  assert (continent_name (column [str "continent"; str "continent_code"] fs row) = column [str "continent"; str "continent_code"] fs row) as CN.
  { apply column_continent; try assumption. apply dump_names. in_common. }
  apply continent_default in CN. rewrite mem_row, !CN. reflexivity.
Qed.
Lemma mdump_version now today txt out : mdump now today txt = Ok out ->
  dVersion out = mkVersion (vIpType (dVersion out)) (vCount (dVersion out)) now today [] [].
Proof.
  unfold mdump. destruct (mem_rows _) as [rs| | |]; cbn [bind]; try discriminate. destruct (mem_split rs) as [rows| | |]; cbn [bind]; try discriminate.
  destruct (idx _ 0) as [l0| | |]; cbn [bind]; try discriminate. intros [= <-]. reflexivity.
Qed.
Lemma in_combine_nth {A B} (l : list A) (m : list B) x y : In (x, y) (combine l m) -> exists i, nth_error l i = Some x /\ nth_error m i = Some y.
Proof.
  revert m. induction l as [|a l IH]; intros m H; [destruct H|]. destruct m as [|b m]; [destruct H|]. destruct H as [H|H].
  - injection H as -> ->. exists 0. split; reflexivity.
  - destruct (IH m H) as [i [A1 A2]]. exists (S i). split; assumption.
Qed.
Lemma nth_combine {A B} (l : list A) (m : list B) i x y : nth_error l i = Some x -> nth_error m i = Some y -> In (x, y) (combine l m).
Proof.
  revert m i. induction l as [|a l IH]; intros [|b m] [|i] H1 H2; cbn in *; try discriminate; [left; congruence|right; eauto].
Qed.
Lemma view_tab fields row : Forall (no_byte x09) row -> Forall (no_byte x09) (memip_view fields row).
Proof.
  intros F. apply view_all; [|assumption].
  repeat (constructor; [intros H; cbn in H; repeat (destruct H as [H|H]; [discriminate H|]); exact H|]). constructor.
Qed.
Lemma view_short fields row : Forall clean row -> (N.of_nat (length (join x09 (memip_view fields row))) < 65536)%N.
Proof.
  intros F. assert (Forall (fun v : bytes => length v <= N.to_nat 9999) (memip_view fields row)) as A.
  { assert (Forall clean (memip_view fields row)) as C by (apply view_all; [apply words_clean|assumption]).
    eapply Forall_impl; [|exact C]. intros v (_ & _ & _ & _ & L). lia. }
  apply total_bound in A. pose proof (join_total x09 (memip_view fields row) ltac:(discriminate)) as J.
  change (length (memip_view fields row)) with 6 in *. lia.
Qed.

(** C68: an .ipdb file of one family, dumped, packed into .memip, dumped again and packed into
    .ipdb answers every address of the family with the answer of the first file as .memip shows
    it; only the city may be that of a lower address, between which and the address asked for
    all answers agree. *)
Theorem C68_memip : forall E file file2 rule data d ipList1 ipList2 q1,
  path_ext file = str ".ipdb" -> DumpFile (converterFormats E) file (Some data) [] [] = Ok d ->
  NewDbFromBytes (serverFormats E) ipList1 (str ".ipdb") data = Ok q1 ->
  NoDup (hFields d) -> path_ext file2 = str ".memip" ->
  (forall row, In row (dIps (contents d)) -> Forall clean (fvals row)) ->
  (vIpType (hVersion d) = 1%Z /\ (forall row v, In row (dIps (contents d)) -> In v (fvals row) -> no_byte x3a v) \/
   vIpType (hVersion d) = 2%Z /\ (exists ip1 ip2 i1 m1 i2 m2, valid_ip ip1 /\ valid_ip ip2 /\ ~ is_v4 (addr ip1) /\ ~ is_v4 (addr ip2) /\
     QueryStr q1 (ip_string ip1) = Ok (Some i1, m1, None) /\ QueryStr q1 (ip_string ip2) = Ok (Some i2, m2, None) /\
     mem_answer [] i1 <> mem_answer [] i2)) ->
  json_ok (jMeta E) (jUnMeta E) (eNow E)
    (mkData [str "city"; str "province"; str "district"; str "isp"; str "country"; str "continent"] (mkVersion (vIpType (hVersion d)) 0 0 (eToday E) [] []) []) ->
  exists text d2 data2, PackBytes (converterFormats E) (str ".memip") d = Ok (text, d) /\
    DumpFile (converterFormats E) file2 (Some text) rule [] = Ok d2 /\
    PackBytes (converterFormats E) (str ".ipdb") d2 = Ok (data2, d2) /\
    ((Z.of_nat (length data2) < 2 ^ 32)%Z ->
     exists q2, NewDbFromBytes (serverFormats E) ipList2 (str ".ipdb") data2 = Ok q2 /\
       forall ip, valid_ip ip -> dumped_family (vIpType (hVersion d)) (addr ip) ->
         exists i m ip0 i0 m0 m2, QueryStr q1 (ip_string ip) = Ok (Some i, m, None) /\
           valid_ip ip0 /\ (addr ip0 <= addr ip)%N /\ QueryStr q1 (ip_string ip0) = Ok (Some i0, m0, None) /\
           QueryStr q2 (ip_string ip) = Ok (Some (mem_answer (iCity i0) i), m2, None) /\
           forall ip1, valid_ip ip1 -> (addr ip0 <= addr ip1 <= addr ip)%N -> dumped_family (vIpType (hVersion d)) (addr ip1) ->
             exists i1 m1, QueryStr q1 (ip_string ip1) = Ok (Some i1, m1, None) /\ mem_answer [] i1 = mem_answer [] i).
Proof.
  intros E file file2 rule data d il1 il2 q1 Hp HD HQ HN Hp2 HC HT HJ.
  destruct (dumped _ _ _ _ Hp HD) as (d0 & D0 & ->). destruct (fresh_spec (eGrow E) d0) as (EC & Lg & _).
  destruct (open_query _ _ _ _ HQ) as (r & c & _ & O & T).
  destruct (dump_rows _ _ _ _ D0) as (r' & bs & O' & Ef & Ev & Ti & F2).
  rewrite O in O'. injection O' as <-. set (d := fresh (eGrow E) d0) in *.
  assert (EF : hFields d = dump_fields r) by (change (dFields (contents d) = dump_fields r); rewrite EC; exact Ef).
  assert (EV : vIpType (hVersion d) = IpType (rMeta r)) by (change (vIpType (dVersion (contents d)) = IpType (rMeta r)); rewrite EC, Ev; reflexivity).
  rewrite EF in HN. rewrite EC in HC, HT. set (t := vIpType (hVersion d)) in *.
  (* the rows *)
  assert (RW : forall row b, In (row, b) (combine (dIps d0) bs) -> dumped_row r row b).
  { intros row b I. apply in_combine_nth in I as (i & Hr & Hb). clear - F2 Hb Hr. revert i Hb Hr.
    induction F2 as [|? ? ? ? H F2 IH]; intros [|i] Hb Hr; cbn in *; try discriminate; [congruence|eauto]. }
  assert (AN : forall row b ip, In (row, b) (combine (dIps d0) bs) -> valid_ip ip -> in_block b (addr ip) -> dumped_family t (addr ip) ->
     exists i m, QueryStr q1 (ip_string ip) = Ok (Some i, m, None) /\
       (forall c, row_info memFields (or_default (Some c) :: uncity (memip_view (dump_fields r) (fvals row))) = mem_answer c i) /\
       nth 0 (memip_view (dump_fields r) (fvals row)) [] = or_default (Some (iCity i))).
  { intros row b ip I V B Fm. destruct (RW _ _ I) as [_ _ _ _ (ret & Sh & Er & G)]. rewrite EV in Fm. specialize (G ip V B Fm).
    exists (make_info (mFields (rMeta r)) ret), (prefix_len (addr ip) b). split; [rewrite C47_str by assumption; rewrite T, G; reflexivity|].
    rewrite Er. split; [intros c0; apply (view_answer r ret c0 Sh HN)|apply (view_answer r ret [] Sh HN)]. }
  assert (FIND : forall a, (a < 2 ^ 128)%N -> dumped_family t a -> exists row b, In (row, b) (combine (dIps d0) bs) /\ in_block b a).
  { intros a La Fm. rewrite EV in Fm. destruct (tiles_nth _ _ _ a Ti) as (i & b & Hb & Bi); [apply dumped_family_range; assumption|].
    destruct (nth_error (dIps d0) i) as [row|] eqn:Hr; [exists row, b; split; [eapply nth_combine; eassumption|assumption]|].
    apply nth_error_None in Hr. assert (nth_error bs i <> None) as Nn by congruence. apply nth_error_Some in Nn. pose proof (Forall2_length F2). lia. }
  assert (FAM : Forall (fun b => v4b (base b) = negb (t =? 2)%Z) bs).
  { rewrite EV. clear - F2. induction F2 as [|row b rows bs [_ _ _ H _] F2 IH]; constructor; assumption. }
  pose proof (tiles_covers _ _ _ Ti) as [_ Cv].
  assert (memable (contents d) bs) as MA.
  { rewrite EC. constructor.
    - intros X. rewrite X in F2. inversion F2 as [HX|]. subst bs. cbn [tiles] in Ti. rewrite <- EV in Ti. unfold dump_family in Ti. destruct (t =? 2)%Z; vm_compute in Ti; discriminate Ti.
    - clear - F2. induction F2 as [|row b rows bs [H1 H2 _ _ _] F2 IH]; constructor; [split; assumption|assumption].
    - apply Forall_forall. intros row I. split; [|apply HC; assumption].
      assert (exists b, In (row, b) (combine (dIps d0) bs)) as [b Ib].
      { clear - F2 I. induction F2 as [|row0 b rows bs H F2 IH]; [destruct I|]. destruct I as [->|I]; [exists b; left; reflexivity|]. destruct (IH I) as [b' Hb]. exists b'. right. exact Hb. }
      destruct (RW _ _ Ib) as [_ _ _ _ (ret & _ & Er & _)]. rewrite Er, Ef. unfold dump_row. apply map_length.
    - change (vIpType (dVersion d0)) with (vIpType (dVersion d0)). replace (vIpType (dVersion d0)) with t by (unfold t; change (vIpType (dVersion (contents d)) = vIpType (dVersion d0)); rewrite EC; reflexivity).
      destruct HT as [[Ht _]|[Ht _]]; [left|right]; (split; [rewrite Ht; (reflexivity || discriminate)|]).
      + intros b a Ib Ba. assert (exists b, In b bs /\ in_block b a) as X by eauto. apply Cv in X. rewrite <- EV, Ht in X. exact X.
      + split.
        * intros b Ib I4. rewrite Forall_forall in FAM. specialize (FAM b Ib). rewrite Ht in FAM. apply PropsDump.v4b_iff in I4. rewrite I4 in FAM. discriminate FAM.
        * rewrite <- EV, Ht in Ti. cbn [dump_family Z.eqb Pos.eqb fam_end fam6 fam_first] in Ti. clear - Ti. revert Ti. generalize 0%N.
          induction bs as [|b bs IH]; intros s Ti; [constructor|]. destruct bs as [|b2 bs]; [constructor|].
          change (removelast (b :: b2 :: bs)) with (b :: removelast (b2 :: bs)). destruct Ti as (Hb & _ & Ti). constructor; [|eapply IH; exact Ti].
          destruct Ti as (Hb2 & _ & Ti). apply tiles_le in Ti. pose proof (N.pow_nonzero 2 (logsz b2) ltac:(discriminate)). rewrite Hb. lia. }
  destruct (C33_roundtrip (eNow E) (eToday E) (contents d) bs MA) as (txt & out & bs' & Pk & Dm & Of & Nb & Fw & Bw & DJ & _ & V6 & V4).
  specialize (DJ (tiles_disjoint _ _ _ Ti)). change (dFields (contents d)) with (hFields d) in Fw, Bw. rewrite EF, EC in Fw, Bw.
  assert (vIpType (dVersion out) = t) as Vt.
  { change (vIpType (dVersion (contents d))) with t in V6, V4. rewrite EC in V4. destruct HT as [[Ht NC]|[Ht _]]; [rewrite Ht; apply V4; assumption|rewrite Ht; apply V6; rewrite Ht; discriminate]. }
  pose proof (mdump_version _ _ _ _ Dm) as Vo.
  pose proof (mdumpH_spec (eNow E) (eToday E) txt) as MH. rewrite Dm in MH. destruct (mdumpH (eNow E) (eToday E) txt) as [d2| | |] eqn:D2; try contradiction.
  destruct MH as [E2 _].
  assert (HF2 : hFields d2 = memFields) by (change (dFields (contents d2) = memFields); rewrite E2; exact Of).
  assert (HV2 : hVersion d2 = dVersion out) by (change (dVersion (contents d2) = dVersion out); rewrite E2; reflexivity).
  (* the rows of the second dump *)
  assert (B2 : forall r2 b2 a, In (r2, b2) (combine (dIps out) bs') -> in_block b2 a -> exists row b, In (row, b) (combine (dIps d0) bs) /\ in_block b a /\
      uncity (memip_view (dump_fields r) (fvals row)) = uncity (fvals r2)).
  { intros r2 b2 a I Ha. destruct (Bw r2 b2 a I Ha) as (r0 & b0 & _ & _ & Le & H). destruct (H a) as (row & b & I1 & I2 & I3); [split; [assumption|apply N.le_refl]|]. eauto. }
  assert (RO : Forall2 row_ok (dIps out) bs').
  { assert (forall r2 b2, In (r2, b2) (combine (dIps out) bs') -> net_is (cidr r2) b2 /\ aligned b2 -> row_ok r2 b2) as G.
    { intros r2 b2 I [N2 A2]. destruct (Bw r2 b2 (base b2) I (in_block_base b2)) as (r0 & b0 & I0 & Fv & _ & _).
      apply in_combine_l in I0 as Ir0. destruct (RW _ _ I0) as [_ _ _ _ (ret & Sh & Er & _)].
      constructor; [constructor; [assumption|assumption|]| | |].
      - destruct (N.lt_ge_cases (logsz b2) 128) as [L|L]; [assumption|exfalso].
        assert (logsz b2 = 128%N) as L8 by (pose proof (ni_logsz _ _ N2); destruct (ni_len _ _ N2) as [X|X]; rewrite X in *; lia).
        assert (forall a, (a < 2 ^ 128)%N -> in_block b2 a) as All.
        { intros a La. unfold aligned in A2. rewrite L8 in A2. assert (base b2 < 2 ^ 128)%N by (rewrite (ni_base _ _ N2); apply addr_bound; apply (ni_len _ _ N2)).
          rewrite N.mod_small in A2 by assumption. unfold in_block. rewrite A2, L8. lia. }
        destruct HT as [[Ht _]|[Ht (ip1 & ip2 & i1 & m1 & i2 & m2 & V1 & V2 & S1 & S2 & Q1 & Q2 & Ne)]].
        + destruct (B2 r2 b2 0%N I (All 0%N eq_refl)) as (row & b & Ib & Bb & _). apply in_combine_r in Ib.
          assert (exists b, In b bs /\ in_block b 0%N) as X by eauto. apply Cv in X. rewrite <- EV, Ht in X. vm_compute in X. destruct X as [X _]. apply X. reflexivity.
        + apply Ne. assert (forall ip i m, valid_ip ip -> ~ is_v4 (addr ip) -> QueryStr q1 (ip_string ip) = Ok (Some i, m, None) ->
             mem_answer [] i = row_info memFields (or_default (Some []) :: uncity (fvals r2))) as K.
          { intros ip i m V S Q. destruct (B2 r2 b2 (addr ip) I (All _ (addr_bound _ V))) as (row & b & Ib & Bb & Eu).
            destruct (AN row b ip Ib V Bb) as (i' & m' & Q' & Va & _).
            { unfold dumped_family. rewrite Ht. cbn [Z.eqb Pos.eqb negb]. destruct (v4b (addr ip)) eqn:Ev4; [exfalso; apply S, PropsDump.v4b_iff; exact Ev4|reflexivity]. }
            rewrite <- Eu, Va. rewrite Q in Q'. injection Q' as <- _. reflexivity. }
          rewrite (K ip1 i1 m1), (K ip2 i2 m2) by assumption. reflexivity.
      - rewrite Fv. discriminate.
      - rewrite Fv. apply view_tab. rewrite Er. apply dump_row_tab. assumption.
      - rewrite Fv. apply view_short. apply HC. assumption. }
    clear - Nb G. induction Nb as [|r2 b2 rows bs2 H Nb IH]; constructor; [apply G; [left; reflexivity|assumption]|]. apply IH. intros r3 b3 I. apply G. right. exact I. }
  destruct (C47_packed E d2 bs' il2) as (data2 & P2 & Q2).
  { rewrite E2. exact RO. } { exact DJ. } { rewrite HF2. intros f If Nf Hf. cbn in If. repeat (destruct If as [<-|If]; [first [vm_compute in Hf; discriminate Hf|apply Nf; reflexivity]|]). destruct If. }
  { rewrite HF2. discriminate. }
  { rewrite E2. intros nodes size H1 H2. specialize (HJ nodes size H1 H2). unfold meta_of in *. cbn [dFields dVersion] in HJ. rewrite Of, Vo, Vt. exact HJ. }
  exists txt, d2, data2. split.
  { unfold PackBytes. change (GetPackFormat (converterFormats E) (str ".memip")) with (Some (fun d => let* t := mpack (contents d) in Ok (t, d))).
    cbv beta iota. rewrite Pk. reflexivity. }
  split.
  { unfold DumpFile. rewrite Hp2. change (GetDumpFormat (converterFormats E) (str ".memip")) with (Some (fun (data : bytes) (_ : option Exporter) => mdumpH (eNow E) (eToday E) data)).
    cbv beta iota. rewrite D2. reflexivity. }
  split; [exact P2|]. intros Hs. destruct (Q2 Hs) as (q2 & O2 & Q3 & _). exists q2. split; [exact O2|].
  intros ip V Fm. destruct (FIND (addr ip) (addr_bound _ V) Fm) as (row & b & Ib & Bb).
  destruct (AN row b ip Ib V Bb Fm) as (i & m & A1 & A2 & _).
  destruct (Fw row b (addr ip) Ib Bb) as (r2 & b2 & I2 & H2 & U2).
  destruct (Bw r2 b2 (addr ip) I2 H2) as (r0 & b0 & I0 & Fv & Le & Hc).
  destruct (RW _ _ I0) as [N0 _ _ F0 _].
  assert (addr (nIP (cidr r0)) = base b0) as Ea by (symmetry; apply (ni_base _ _ N0)).
  destruct (AN r0 b0 (nIP (cidr r0)) I0 (ni_len _ _ N0)) as (i0 & m0 & C1 & C2 & C3).
  { rewrite Ea. apply in_block_base. } { unfold dumped_family. rewrite Ea, EV. exact F0. }
  destruct (in_combine_nth _ _ _ _ I2) as (k & K1 & K2).
  exists i, m, (nIP (cidr r0)), i0, m0, (prefix_len (addr ip) b2). split; [exact A1|]. split; [apply (ni_len _ _ N0)|]. split; [rewrite Ea; exact Le|]. split; [exact C1|]. split.
  - rewrite (Q3 k r2 b2 ip); [|rewrite E2; exact K1|exact K2|rewrite HF2, Fv; reflexivity|exact V|exact H2|rewrite HV2, Vt; apply dumped_family_holds; exact Fm].
    rewrite HF2. do 3 f_equal. rewrite <- (A2 (iCity i0)). f_equal. rewrite <- C3, <- U2, Fv. reflexivity.
  - intros ip1 V1 Le1 Fm1. destruct (Hc (addr ip1)) as (r1 & b1 & I1 & H1 & U1); [rewrite <- Ea; exact Le1|].
    destruct (AN r1 b1 ip1 I1 V1 H1 Fm1) as (i1 & m1 & G1 & G2 & _). exists i1, m1. split; [exact G1|].
    rewrite <- (G2 []), <- (A2 []). f_equal. f_equal. rewrite U1, U2. reflexivity.
Qed.
Print Assumptions C68_memip.

(* ------------------------------------------------------------------ *)
(** C68, finding: IPv4 rows of a dataset that is not declared IPv4 (as dumps of files with both
    families are) are written in dotted form, which the reader of the format crashes on. *)
Lemma dotted_no_number a b c d : ParseUint32 (dotted [a; b; c; d]) = None.
Proof.
  unfold ParseUint32, dotted. cbn [map].
  change (join x2e [dec (b2n a); dec (b2n b); dec (b2n c); dec (b2n d)]) with (dec (b2n a) ++ x2e :: join x2e [dec (b2n b); dec (b2n c); dec (b2n d)]).
  rewrite scan_dec; [|pose proof (b2n_lt a); lia|reflexivity].
  unfold some_digits. destruct (length (dec (b2n a))); reflexivity.
Qed.
Lemma line_mixed r f : length (rStart r) = 16 -> length (rEnd r) = 16 -> is_v4 (addr (rStart r)) -> length f = 6 -> Forall clean f ->
  exists l, mem_line false (r, f) = Ok (l ++ [x0a]) /\ mparseLine l = Ok (None, f) /\ MemipProofs.fits l.
Proof.
  intros L1 L2 V1 LF C. destruct (MemipProofs.view_text f LF C) as [T1 [T2 [T3 [T4 T5]]]].
  assert (W1 : valid_ip (rStart r)) by (right; assumption). assert (W2 : valid_ip (rEnd r)) by (right; assumption).
  exists (ip_string (rStart r) ++ x20 :: ip_string (rEnd r) ++ x20 :: join x2d f). split; [|split].
  - unfold mem_line. cbn [fst snd]. do 2 (rewrite <- !app_assoc; cbn [app]). reflexivity.
  - rewrite MemipProofs.line_parse by (assumption || (apply MemipProofs.ip_no; (assumption || discriminate || reflexivity))). rewrite T4.
    assert (exists a b c d, ip_string (rStart r) = dotted [a; b; c; d]) as (a & b & c & d & ED).
    { unfold ip_string. destruct (to4_spec (rStart r) W1) as [T1' T2']. assert (to4 (rStart r) <> []) as Q by (apply T1'; unfold is_v4, v4base in V1; lia).
      destruct (T2' Q) as [L4 _]. destruct (to4 (rStart r)) as [|a [|b [|c [|d [|]]]]]; try discriminate L4. exists a, b, c, d. reflexivity. }
    rewrite ED. rewrite MemipProofs.has_colon_no.
    2:{ unfold dotted. cbn [map]. apply PlainProofs.join_no; [discriminate|]. repeat (constructor; [apply MemipProofs.undec_no; reflexivity|]). constructor. }
    unfold parseV4Range. rewrite dotted_no_number. reflexivity.
  - pose proof (ip_string_length _ W1). pose proof (ip_string_length _ W2).
    apply MemipProofs.line_fits; try assumption; try (apply MemipProofs.ip_no; (assumption || discriminate || reflexivity)); lia.
Qed.
Theorem C68_mixed_crashes : forall now today d bs,
  dIps d <> [] -> Forall2 (fun r b => net_is (cidr r) b /\ aligned b) (dIps d) bs ->
  Forall (fun r => length (fvals r) = length (dFields d) /\ Forall clean (fvals r)) (dIps d) ->
  vIpType (dVersion d) <> 1%Z -> (forall b, In b bs -> is_v4 (base b)) ->
  exists txt, mpack d = Ok txt /\ mdump now today txt = Panic.
Proof.
  intros now today d bs NE HN HV HT H4.
  assert (HR : Forall2 (MemipProofs.row_ok (dFields d)) (dIps d) bs).
  { apply Forall2_rows; [assumption|]. eapply Forall_impl; [|exact HV]. intros r [H _]; exact H. }
  destruct (mpack_ranges d bs NE HR) as [out [Ps [EP [C G]]]]. destruct (Z.eqb_spec (vIpType (dVersion d)) 1) as [|_]; [congruence|].
  assert (exists ls, Forall2 (fun rf l => mem_line false rf = Ok (l ++ [x0a]) /\ mparseLine l = Ok (None, snd rf) /\ MemipProofs.fits l) out ls) as [ls F].
  { assert (incl (concat Ps) (combine (dIps d) bs)) as I by (rewrite C; apply incl_refl). clear - G I H4 HV.
    induction G as [|[r f] Q out Ps S G IH]; [exists []; constructor|]. cbn [concat] in I.
    destruct IH as [ls F]; [eapply incl_tran; [|exact I]; apply incl_appr, incl_refl|]. cbn [fst snd] in S.
    destruct (MemipProofs.st_len _ _ _ _ S) as [L1 L2]. destruct (MemipProofs.st_first _ _ _ _ S) as [r0 [b0 [I0 [E0 B0]]]].
    assert (In (r0, b0) (combine (dIps d) bs)) as I1 by (apply I, in_or_app; now left).
    rewrite Forall_forall in HV. destruct (HV r0 (in_combine_l _ _ _ _ I1)) as [_ CL].
    destruct (line_mixed r f L1 L2) as [l H].
    - rewrite <- B0. apply H4. eapply in_combine_r; exact I1.
    - rewrite <- E0. reflexivity.
    - rewrite <- E0. apply view_all; [apply words_clean|assumption].
    - exists (l :: ls). constructor; [exact H|exact F]. }
  assert (mem_lines false out = Ok (PlainProofs.unlines ls)) as EL.
  { clear - F. induction F as [|rf l out ls (E & _) F IH]; [reflexivity|]. cbn [mem_lines]. rewrite E. cbn [bind]. rewrite IH. reflexivity. }
  assert (Plain.scan_lines (PlainProofs.unlines ls) = ls) as ES.
  { assert (Forall MemipProofs.fits ls) as FF by (clear - F; induction F as [|rf l out ls (_ & _ & H) F IH]; constructor; assumption).
    apply PlainProofs.scan_unlines; (eapply Forall_impl; [|exact FF]); intros l (A & B & C'); assumption. }
  exists (PlainProofs.unlines ls). split; [rewrite EP; exact EL|]. unfold mdump. rewrite ES.
  destruct F as [|rf l out ls (_ & E & _) F].
  - exfalso. inversion G; subst. cbn [concat] in C. destruct HN; [congruence|discriminate C].
  - cbn [mem_rows]. rewrite E. reflexivity.
Qed.
Print Assumptions C68_mixed_crashes.

(** Cases. *)
Lemma clean_lit v : forallb (fun c => negb (byte_eqb c x20 || byte_eqb c x2d || byte_eqb c x0a || byte_eqb c x0d)) v && (N.of_nat (length v) <? 10000)%N = true -> clean v.
Proof.
  intros H. apply andb_true_iff in H as [H L]. apply N.ltb_lt in L. rewrite forallb_forall in H.
  assert (forall c, (c = x20 \/ c = x2d \/ c = x0a \/ c = x0d) -> no_byte c v) as K.
  { intros c Hc I. specialize (H c I). destruct Hc as [->|[->|[->|Hc]]]; [discriminate H..|subst c; discriminate H]. }
  repeat split; try (apply K; auto); exact L.
Qed.
Example C68_case : exists q1, NewDbFromBytes (serverFormats case_env) [] (str ".ipdb") (packed_file comma_ipd) = Ok q1 /\
  DumpFile (converterFormats case_env) (str "a.ipdb") (Some (packed_file comma_ipd)) [] [] = Ok comma_data /\
  path_ext (str "a.ipdb") = str ".ipdb" /\ path_ext (str "a.memip") = str ".memip" /\ NoDup (hFields comma_data) /\
  (forall row, In row (dIps (contents comma_data)) -> Forall clean (fvals row)) /\
  vIpType (hVersion comma_data) = 1%Z /\ (forall row v, In row (dIps (contents comma_data)) -> In v (fvals row) -> no_byte x3a v) /\
  json_ok (jMeta case_env) (jUnMeta case_env) (eNow case_env)
    (mkData [str "city"; str "province"; str "district"; str "isp"; str "country"; str "continent"] (mkVersion (vIpType (hVersion comma_data)) 0 0 (eToday case_env) [] []) []).
Proof.
  destruct C67_copy_case as (q1 & H1 & H2 & H3 & _ & H5 & _). exists q1. split; [exact H1|]. split; [exact H2|]. split; [exact H3|]. split; [reflexivity|]. split; [exact H5|].
  unfold comma_data. rewrite (proj1 (fresh_spec _ _)). cbn [dIps].
  split. { intros row [<-|[<-|[]]]; repeat (constructor; [apply clean_lit; vm_compute; reflexivity|]); constructor. }
  split; [reflexivity|]. split.
  { intros row v [<-|[<-|[]]] [<-|[<-|[<-|[]]]]; apply PropsPlain.lit_no; vm_compute; reflexivity. }
  apply C54_json_ok; [|unfold int64; cbn; lia]. constructor; cbn [dFields dVersion vVersion vExtra]; [repeat (constructor; [ascii|]); constructor|ascii|constructor].
Qed.
Example C68_mixed_case : contents conv_data <> mkData [] (dVersion (contents conv_data)) [] /\ dIps (contents conv_data) <> [] /\
  Forall2 (fun r b => net_is (cidr r) b /\ aligned b) (dIps (contents conv_data)) comma_blocks /\
  Forall (fun r => length (fvals r) = length (dFields (contents conv_data)) /\ Forall clean (fvals r)) (dIps (contents conv_data)) /\
  vIpType (dVersion (contents conv_data)) <> 1%Z /\ (forall b, In b comma_blocks -> is_v4 (base b)).
Proof.
  unfold conv_data. rewrite (proj1 (fresh_spec _ _)). cbn [dIps dFields dVersion vIpType]. split; [discriminate|]. split; [discriminate|].
  split. { repeat constructor; cbn; try lia; reflexivity. }
  split. { repeat (constructor; [split; [reflexivity|]; repeat (constructor; [apply clean_lit; vm_compute; reflexivity|]); constructor|]). constructor. }
  split; [discriminate|]. intros b [<-|[<-|[]]]; vm_compute; split; (discriminate || reflexivity).
Qed.
(** A file of IPv6 networks with two answers. *)
Definition six_ipd : IpData := mkData [str "country"; str "city"; str "isp"] (mkVersion 2 0 0 (str "v1") [] [])
  [ mkRaw (mkNet (x00 :: repeat x00 15) (x80 :: repeat x00 15)) [str "CN"; str "x"; str "y"];
    mkRaw (mkNet (x80 :: repeat x00 15) (x80 :: repeat x00 15)) [str "US"; str "z"; str "w"] ].
Definition six_blocks : list block := [mkBlock 0 127; mkBlock (2 ^ 127)%N 127].
Definition six_data : HData := fresh (fun _ => 1) (mkData [str "country"; str "city"; str "isp"] (mkVersion 2 1 0 (str "v1") [str "CN"] []) (dIps six_ipd)).
Definition six_low : bytes := repeat x00 15 ++ [x05].
Definition six_high : bytes := xff :: repeat x00 15.
Example C68_six_case : exists q1, NewDbFromBytes (serverFormats case_env) [] (str ".ipdb") (packed_file six_ipd) = Ok q1 /\
  DumpFile (converterFormats case_env) (str "a.ipdb") (Some (packed_file six_ipd)) [] [] = Ok six_data /\
  NoDup (hFields six_data) /\ (forall row, In row (dIps (contents six_data)) -> Forall clean (fvals row)) /\
  vIpType (hVersion six_data) = 2%Z /\
  (exists ip1 ip2 i1 m1 i2 m2, valid_ip ip1 /\ valid_ip ip2 /\ ~ is_v4 (addr ip1) /\ ~ is_v4 (addr ip2) /\
     QueryStr q1 (ip_string ip1) = Ok (Some i1, m1, None) /\ QueryStr q1 (ip_string ip2) = Ok (Some i2, m2, None) /\
     mem_answer [] i1 <> mem_answer [] i2) /\
  json_ok (jMeta case_env) (jUnMeta case_env) (eNow case_env)
    (mkData [str "city"; str "province"; str "district"; str "isp"; str "country"; str "continent"] (mkVersion (vIpType (hVersion six_data)) 0 0 (eToday case_env) [] []) []).
Proof.
  assert (match NewDbFromBytes (serverFormats case_env) [] (str ".ipdb") (packed_file six_ipd) with
          | Ok q => QueryStr q (ip_string six_low) = Ok (Some (mkInfo (str "CN") [] [] (str "x") [] (str "y") [] []), 1, None) /\
                    QueryStr q (ip_string six_high) = Ok (Some (mkInfo (str "US") [] [] (str "z") [] (str "w") [] []), 1, None)
          | _ => False end) as H by (vm_compute; split; reflexivity).
  destruct (NewDbFromBytes _ _ _ _) as [q1| | |]; try contradiction. destruct H as [Q1 Q2]. exists q1. split; [reflexivity|].
  split; [vm_compute; reflexivity|]. split; [repeat constructor; cbn; intuition discriminate|].
  split. { unfold six_data. rewrite (proj1 (fresh_spec _ _)). cbn [dIps six_ipd]. intros row [<-|[<-|[]]]; repeat (constructor; [apply clean_lit; vm_compute; reflexivity|]); constructor. }
  split; [reflexivity|]. split.
  { exists six_low, six_high. do 4 eexists. split; [right; reflexivity|]. split; [right; reflexivity|].
    split; [intros [A B]; vm_compute in A; apply A; reflexivity|]. split; [intros [A B]; vm_compute in B; discriminate B|].
    split; [exact Q1|]. split; [exact Q2|]. intros X. vm_compute in X. discriminate X. }
  apply C54_json_ok; [|unfold int64; cbn; lia]. constructor; cbn [dFields dVersion vVersion vExtra]; [repeat (constructor; [ascii|]); constructor|ascii|constructor].
Qed.

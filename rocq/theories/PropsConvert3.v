(** Property theorems C58: the converter with its default rule. *)
From Verif Require Import Base NetIP IpNet Spec IpNetProofs SplitProofs IpNetProofs2 Inf Ipdb SpecIpdb SpecExport Export ExportProofs BuildProofs Bits.
From Verif Require Import TrieProofs WriterProofs ReaderProofs OpenProofs PackProofs PropsIpdb DumpProofs PropsExport PropsDump.
From Verif Require Import Json JsonProofs PropsJson.
From Verif Require Import Tables Operate SpecOperate OperateProofs OperateProofs2 MergeProofs MergeProofs2 PropsMerge PropsOperate PropsOperate2 PropsOperate3 NetText NetTextProofs Plain SpecText PlainProofs PropsPlain Memip AwDecode AwTree Facade PropsFacade2 PropsFacade3 ConvertProofs ConvertProofs2 FastOpen PropsConvert PropsConvert2 Convert.
From Verif Require Import SpecAw AwDecodeProofs SpecAwTree AwTreeProofs AwIterProofs PropsAwTree PropsAwQuery.
From Coq Require Import Permutation.
Open Scope nat_scope.

(* ---------- the default rule ---------- *)
Definition seven : list bytes := [str "country"; str "province"; str "city"; str "isp"; str "asn"; str "continent"; str "district"].
Definition china : bytes := str "中国".
Definition taiwan : list bytes := [str "台湾"; str "中国台湾"].
Definition rule_foreign : rule := mkRule (str "country") true [china] [str "country"; str "continent"].
Definition rule_taiwan : rule := mkRule (str "province") false taiwan [str "country"; str "province"; str "continent"; str "district"].
(** The values the default rule selects. *)
Definition select7 (co pr ci is as_ ct di : bytes) : list bytes :=
  if negb (bytes_eqb co china) then [co; []; []; []; []; ct; []]
  else if in_array pr taiwan then [co; pr; []; []; []; ct; di]
  else [co; pr; ci; is; as_; ct; di].

Lemma default_parsed : exists e, ParseRule DefaultRule = Some e /\ eFields e = seven /\ means e [rule_foreign; rule_taiwan].
Proof.
  destruct C23_case as (H1 & H2 & H3 & H4 & H5).
  destruct (C23_documented_syntax default_fields default_rules) as (e & P & F & M); try assumption; [discriminate|rewrite H1; discriminate|].
  rewrite H5 in M. exists e. rewrite H1 in P. split; [exact P|]. split; [exact F|]. exact M.
Qed.
Lemma seven_nodup : NoDup seven.
Proof. repeat constructor; cbn; intuition discriminate. Qed.
Lemma holds_foreign co l : rule_holds seven (co :: l) rule_foreign <-> co <> china.
Proof.
  split.
  - intros (i & v & H1 & H2 & H3). cbn [rule_foreign rkey rnot rvals] in *.
    assert (i = 0) as -> by (eapply ConvertProofs2.NoDup_nth; [exact seven_nodup|exact H1|reflexivity]).
    cbn in H2. intros ->. apply H3. left. congruence.
  - intros N. exists 0, co. split; [reflexivity|]. split; [reflexivity|]. intros [Q|[]]. congruence.
Qed.
Lemma holds_taiwan co pr l : rule_holds seven (co :: pr :: l) rule_taiwan <-> In pr taiwan.
Proof.
  split.
  - intros (i & v & H1 & H2 & H3). cbn [rule_taiwan rkey rnot rvals] in *.
    assert (i = 1) as -> by (eapply ConvertProofs2.NoDup_nth; [exact seven_nodup|exact H1|reflexivity]).
    cbn in H2. injection H2 as ->. exact H3.
  - intros N. exists 1, pr. split; [reflexivity|]. split; [reflexivity|]. exact N.
Qed.
Ltac blank7 := split; [reflexivity|];
  let i := fresh in let f := fresh in let v := fresh in let A := fresh in let B := fresh in
  intros i f v A B; do 7 (destruct i as [|i]; [cbn in A, B; injection A as <-; injection B as <-; reflexivity|]); cbn in A; destruct i; discriminate A.
Lemma default_selects co pr ci is as_ ct di :
  apply_rules seven [rule_foreign; rule_taiwan] [co; pr; ci; is; as_; ct; di] (select7 co pr ci is as_ ct di).
Proof.
  unfold select7. destruct (bytes_eqb_spec co china) as [->|N]; cbn [negb].
  - apply ar_skip; [rewrite holds_foreign; congruence|].
    destruct (in_array pr taiwan) eqn:E.
    + eapply ar_apply; [rewrite holds_taiwan; apply in_array_iff; assumption| |apply ar_nil]. blank7.
    + apply ar_skip; [rewrite holds_taiwan; intros I; apply in_array_iff in I; congruence|apply ar_nil].
  - eapply ar_apply with (row' := [co; []; []; []; []; ct; []]); [rewrite holds_foreign; assumption|blank7|].
    apply ar_skip; [rewrite holds_taiwan; intros [I|[I|[]]]; discriminate I|apply ar_nil].
Qed.
(** What the default rule exports of a record. *)
Lemma default_exports e fm rec vs : means e [rule_foreign; rule_taiwan] -> eFields e = seven ->
  Export e (Select fm (eFields e)) rec = Ok vs ->
  vs = (let v f := field_value fm rec (str f) in
        select7 (v "country") (v "province") (v "city") (v "isp") (v "asn") (v "continent") (v "district"))%string.
Proof.
  intros M F X. destruct (M fm rec) as (out & E & L & A). assert (out = vs) as -> by congruence.
  rewrite F in L, A. specialize (A seven_nodup).
  refine (proj1 (C22_rules_deterministic _ _ _ _ _ _ A (default_selects _ _ _ _ _ _ _))). reflexivity.
Qed.

(* ---------- specification ---------- *)
(** What the default rule keeps of an answer: abroad only country and continent, in Taiwan
    also the province; never the line, and the district is computed anew afterwards. *)
Definition selected (i : IpInfo) : IpInfo :=
  if negb (bytes_eqb (iCountry i) (str "中国")) then mkInfo (iCountry i) [] [] [] [] [] (iContinent i) []
  else if in_array (iProvince i) [str "台湾"; str "中国台湾"] then mkInfo (iCountry i) [] (iProvince i) [] [] [] (iContinent i) []
  else mkInfo (iCountry i) [] (iProvince i) (iCity i) (iAsn i) (iIsp i) (iContinent i) [].

(** What the converter's operations make of one of the infos [all]: the country, the AS
    number and the line stay, the continent is shown by its name, the names of province
    and city are the normalised ones, the district is the one of the (normalised)
    province, and the normalised operator is kept when it is one of the four main
    operators or no info with the same AS number has one of them; otherwise it becomes the
    (normalised) main operator of some info with the same AS number. *)
Record improved_by (all : IpInfo -> Prop) (i i' : IpInfo) : Prop := {
  ib_country : iCountry i' = iCountry i;
  ib_continent : iContinent i' = continent_name (iContinent i);
  ib_asn : iAsn i' = iAsn i;
  ib_line : iLine i' = iLine i;
  ib_province : normal_name (str "province") (iProvince i) (iProvince i');
  ib_city : normal_name (str "city") (iCity i) (iCity i');
  ib_district : has_district (iProvince i') (iDistrict i');
  ib_isp : exists n, normal_name (str "isp") (iIsp i) n /\
    ((iIsp i' = n /\
      (main_operator n \/
       forall j x, all j -> iAsn j = iAsn i -> normal_name (str "isp") (iIsp j) x -> ~ main_operator x)) \/
     (~ main_operator n /\ main_operator (iIsp i') /\
      exists j, all j /\ iAsn j = iAsn i /\ normal_name (str "isp") (iIsp j) (iIsp i'))) }.

(** A line database that answers or reports an error for every address, without crashing. *)
Definition never_crashes (q : queryDb) : Prop := forall ip, valid_ip ip ->
  (exists i m, QueryStr q (ip_string ip) = Ok (Some i, m, None)) \/ (exists i m e, QueryStr q (ip_string ip) = Ok (i, m, Some e)).
(** f is the first address of the network of a with prefix length m. *)
Definition first_of (a : N) (m : nat) (f : N) : Prop := exists b, aligned b /\ base b = f /\ in_block b a /\ prefix_len a b = m.
(** The line x of a network of this country with prefix length m that holds ip: only networks
    of China have one, made from the answer of the line database q for their first address. *)
Definition line_from (q : queryDb) (ip : bytes) (m : nat) (country x : bytes) : Prop :=
  exists first, valid_ip first /\ first_of (addr ip) m (addr first) /\
    if bytes_eqb country (str "中国") then
      match QueryStr q (ip_string first) with
      | Ok (Some j, _, None) => line_name (iLine j) x
      | _ => x = []
      end
    else x = [].
Definition without_line (i : IpInfo) : IpInfo :=
  mkInfo (iCountry i) (iDistrict i) (iProvince i) (iCity i) (iAsn i) (iIsp i) (iContinent i) [].
(** With a line database: the line is taken from it, everything else is improved as without it. *)
Definition lined (line : option queryDb) (all : IpInfo -> Prop) (i : IpInfo) (ip : bytes) (m : nat) (i' : IpInfo) : Prop :=
  match line with
  | None => improved_by all i i'
  | Some q => improved_by all i (without_line i') /\ line_from q ip m (iCountry i') (iLine i')
  end.

(* ---------- any dump with the default rule ---------- *)
Lemma line_query_ok q ip : valid_ip ip -> never_crashes q -> answers_at (line_query q) ip.
Proof.
  intros V N. destruct (N ip V) as [(i & m & H)|(i & m & e & H)]; rewrite C47_str in H by assumption;
    unfold DbQuery in H; unfold answers_at, line_query; destruct (q_query q ip) as [[[x k] er]| | |]; cbn [bind] in H; try discriminate H.
  - destruct er as [er|]; [discriminate H|]. assert (x = Some i) as -> by congruence. left. eexists. reflexivity.
  - destruct er as [er|]; [|discriminate H]. right. exists er. destruct x; reflexivity.
Qed.
Lemma line_query_str q ip x : valid_ip ip ->
  match line_query q ip with Ok i => line_name (iLine i) x | _ => x = [] end ->
  match QueryStr q (ip_string ip) with Ok (Some j, _, None) => line_name (iLine j) x | _ => x = [] end.
Proof.
  intros V. rewrite C47_str by assumption. unfold DbQuery, line_query. destruct (q_query q ip) as [[[[i|] k] [er|]]| | |]; cbn [bind]; auto.
Qed.
Definition drop_district (i : IpInfo) : IpInfo :=
  mkInfo (iCountry i) [] (iProvince i) (iCity i) (iAsn i) (iIsp i) (iContinent i) (iLine i).
Lemma seven_common : common_only seven.
Proof. intros f I. cbn [seven In] in I. unfold CommonFieldsMap. repeat (destruct I as [<-|I]; [eexists; in_common|]). destruct I. Qed.

Lemma if_line {A B} (g : IpInfo -> A) (line : option B) i : (forall j, g (without_line j) = g j) ->
  g (match line with None => i | Some _ => without_line i end) = g i.
Proof. intros H. destruct line; auto. Qed.
(** From rows to answers. *)
Lemma row_info (t : Z) rows bs (ask : bytes -> IpInfo -> nat -> Prop) (sel : IpInfo -> IpInfo) r0 ln F' v' :
  Forall2 (fun r b => net_is (cidr r) b) rows bs -> tiles (fam_first (dump_family t)) bs (fam_end (dump_family t)) ->
  Forall (fun b => v4b (base b) = negb (t =? 2)%Z) bs ->
  (forall ip i i' m m', ask ip i m -> ask ip i' m' -> i = i') ->
  (forall j row b ip, nth_error rows j = Some row -> nth_error bs j = Some b -> valid_ip ip -> in_block b (addr ip) -> dumped_family t (addr ip) ->
     exists i, ask ip i (prefix_len (addr ip) b) /\ drop_district (fval_info seven (fvals row)) = sel i) ->
  row_improved ln seven rows (fvals r0) F' v' ->
  improved_by (fun j => exists ip' i0 m0, valid_ip ip' /\ dumped_family t (addr ip') /\ ask ip' i0 m0 /\ j = sel i0)
    (drop_district (fval_info seven (fvals r0))) (match ln with None => shown_info F' v' | Some _ => without_line (shown_info F' v') end).
Proof.
  intros Nets Ti Fb Fun Row [I1 Il I2 (n & I3 & I4)].
  assert (Nl : forall f, f <> str "line" -> ln = None \/ f <> str "line") by auto.
    constructor; cbn [drop_district fval_info iCountry iContinent iAsn iLine iProvince iCity iDistrict iIsp];
    rewrite ?(if_line (fun i => iCountry i)), ?(if_line (fun i => iContinent i)), ?(if_line (fun i => iAsn i)), ?(if_line (fun i => iProvince i)),
      ?(if_line (fun i => iCity i)), ?(if_line (fun i => iDistrict i)), ?(if_line (fun i => iIsp i)) by reflexivity;
    cbn [shown_info iCountry iContinent iAsn iLine iProvince iCity iDistrict iIsp].
  - apply (I1 (str "country")); try discriminate. apply Nl. discriminate.
  - f_equal. apply (I1 (str "continent")); try discriminate. apply Nl. discriminate.
  - apply (I1 (str "asn")); try discriminate. apply Nl. discriminate.
  - destruct ln as [x|]; [reflexivity|]. apply (I1 (str "line")); try discriminate. left. reflexivity.
  - apply I1; try discriminate. apply Nl. discriminate.
  - apply I1; try discriminate. apply Nl. discriminate.
  - exact I2.
  - exists n. split; [assumption|]. destruct I4 as [[En K]|(Nm & Mo & q & Iq & Aq & Nq)].
    + left. split; [assumption|]. destruct K as [K|K]; [left; assumption|right].
      intros i1 x (ip' & i0 & m0 & V' & Fm' & Hi0 & ->) Aeq Nx Mx.
      destruct (tiles_nth _ _ _ (addr ip') Ti) as (k' & b' & Hb' & Bi').
      { apply dumped_family_range; [apply addr_bound; assumption|assumption]. }
      destruct (Forall2_nth' _ _ _ Nets k' b' Hb') as (row' & Hr' & _).
      destruct (Row k' row' b' ip' Hr' Hb' V' Bi' Fm') as (i2 & Hi2 & Ei2).
      rewrite (Fun _ _ _ _ _ Hi0 Hi2), <- Ei2 in Aeq, Nx.
      apply (K row' x); [eapply nth_error_In; eassumption|assumption|exact Nx|exact Aeq].
    + right. split; [assumption|]. split; [assumption|].
      apply In_nth_error in Iq as [k Hk]. destruct (Forall2_nth _ _ _ Nets k q Hk) as (bq & Hbq & Hn).
      assert (dumped_family t (addr (nIP (cidr q)))) as Fm'.
      { unfold dumped_family. rewrite <- (ni_base _ _ Hn). rewrite Forall_forall in Fb. apply Fb. eapply nth_error_In. eassumption. }
      assert (in_block bq (addr (nIP (cidr q)))) as Bq by (rewrite <- (ni_base _ _ Hn); apply in_block_base).
      destruct (Row k q bq (nIP (cidr q)) Hk Hbq (ni_len _ _ Hn) Bq Fm') as (i2 & Hi2 & Ei2).
      exists (sel i2). split. { exists (nIP (cidr q)), i2, (prefix_len (addr (nIP (cidr q))) bq). pose proof (ni_len _ _ Hn). auto. }
      rewrite <- Ei2. split; [exact Aq|exact Nq].
Qed.
Lemma convert_selected E order grow d0 bs ipList2 (ask : bytes -> IpInfo -> nat -> Prop) (sel : IpInfo -> IpInfo) line :
  let rows := dIps (contents d0) in let t := vIpType (hVersion d0) in
  (forall k m, Permutation (order k m) m) -> legal d0 -> hFields d0 = seven ->
  Forall2 (fun r b => net_is (cidr r) b) rows bs -> tiles (fam_first (dump_family t)) bs (fam_end (dump_family t)) ->
  Forall (fun b => v4b (base b) = negb (t =? 2)%Z) bs ->
  Forall (fun r => length (fvals r) = 7 /\ Forall (no_byte x09) (fvals r)) rows ->
  (forall ip i i' m m', ask ip i m -> ask ip i' m' -> i = i') ->
  (forall j row b ip, nth_error rows j = Some row -> nth_error bs j = Some b -> valid_ip ip -> in_block b (addr ip) -> dumped_family t (addr ip) ->
     exists i, ask ip i (prefix_len (addr ip) b) /\ drop_district (fval_info seven (fvals row)) = sel i) ->
  match line with None => True | Some q => never_crashes q /\ Forall (full d0) (hRows d0) end ->
  exists d, apply_ops (converterOps order grow (option_map (fun q => (q, false)) line)) d0 = Ok d /\
    ((forall row, In row (dIps (contents d)) -> (N.of_nat (length (join x09 (fvals row))) < 65536)%N) ->
     (t = 2%Z -> forall row, In row (dIps (contents d)) -> (val (nMask (cidr row)) <> 0)%N) ->
     json_ok (jMeta E) (jUnMeta E) (eNow E) (contents d) ->
     exists data2, PackBytes (converterFormats E) (str ".ipdb") d = Ok (data2, d) /\
       ((Z.of_nat (length data2) < 2 ^ 32)%Z ->
        exists q2, NewDbFromBytes (serverFormats E) ipList2 (str ".ipdb") data2 = Ok q2 /\
          forall ip, valid_ip ip -> dumped_family t (addr ip) ->
            exists i m i' m', ask ip i m /\ QueryStr q2 (ip_string ip) = Ok (Some i', m', None) /\ m' <= m /\
              lined line (fun j => exists ip' i0 m0, valid_ip ip' /\ dumped_family t (addr ip') /\ ask ip' i0 m0 /\ j = sel i0) (sel i) ip m' i')).
Proof.
  intros rows t Perm Lg HF Nets Ti Fb Good Fun Row HLn.
  destruct (convert_pack E order grow d0 bs ipList2 (str "country") (tl seven) line) as (d & Ea & Pk); try assumption.
  { exact seven_nodup. } { exact seven_common. } { cbn [seven tl In]. tauto. } { cbn [seven tl In]. tauto. } { cbn [seven tl In]. tauto. }
  { destruct line as [q|]; [|exact I]. destruct HLn as [H1 H2]. split; [intros ip V; apply line_query_ok; assumption|]. split; [assumption|].
    change (str "country" :: tl seven) with seven. split; [|left; reflexivity]. intros I. cbn [seven In] in I.
    repeat (destruct I as [I|I]; [discriminate I|]). destruct I. }
  change (str "country" :: tl seven) with seven in Pk.
  fold t rows in Pk.
  exists d. split; [assumption|]. intros HL HZ HJ. destruct (Pk HL HZ HJ) as (data2 & P & Q). exists data2. split; [assumption|].
  intros Hs. destruct (Q Hs) as (q2 & O2 & Q2). exists q2. split; [assumption|].
  intros ip V Fm. destruct (Q2 ip V Fm) as (j & r0 & b0 & F' & v' & b & net & ln & H1 & H2 & B0 & A2 & Le & Hnet & Ab & Bb & Hln & Ri).
  destruct (Row j r0 b0 ip H1 H2 V B0 Fm) as (i & Hi & Ei).
  exists i, (prefix_len (addr ip) b0), (shown_info F' v'), (prefix_len (addr ip) b).
  split; [assumption|]. split; [assumption|]. split; [assumption|]. rewrite <- Ei.
  assert (Ctry : fval (str "country") F' v' = fval (str "country") seven (fvals r0)).
  { apply (ri_names _ _ _ _ _ _ Ri (str "country")); try discriminate. right. discriminate. }
  pose proof (row_info t rows bs ask sel r0 ln F' v' Nets Ti Fb Fun Row) as Im.
  destruct line as [q|]; cbn [lined]; [|cbn [line_of_db] in Hln; subst ln; apply Im; assumption].
  destruct Hln as (x & -> & Hx). split; [apply Im; assumption|].
  destruct Ri as [_ Il _ _]. exists (nIP net). pose proof (ni_len _ _ Hnet) as Vn. split; [assumption|]. split.
  { exists b. split; [assumption|]. split; [apply (ni_base _ _ Hnet)|]. auto. }
  cbn [shown_info iCountry iLine]. rewrite Ctry, (Il x eq_refl). destruct (bytes_eqb _ _); [|assumption].
  apply line_query_str; assumption.
Qed.

Lemma select7_tab co pr ci is as_ ct di : Forall (no_byte x09) [co; pr; ci; is; as_; ct; di] -> Forall (no_byte x09) (select7 co pr ci is as_ ct di).
Proof.
  intros H. assert (no_byte x09 []) as N0 by (intros []).
  inversion_clear H as [|? ? H1 H']. inversion_clear H' as [|? ? H2 H'']. inversion_clear H'' as [|? ? H3 H']. inversion_clear H' as [|? ? H4 H''].
  inversion_clear H'' as [|? ? H5 H']. inversion_clear H' as [|? ? H6 H'']. inversion_clear H'' as [|? ? H7 _].
  unfold select7. destruct (negb _); [|destruct (in_array _ _)]; repeat (constructor; [assumption|]); constructor.
Qed.
Lemma select7_info co pr ci is as_ ct di d l :
  drop_district (fval_info seven (select7 co pr ci is as_ ct di)) = selected (mkInfo co d pr ci as_ is ct l).
Proof.
  unfold select7, selected. cbn [iCountry iProvince iCity iAsn iIsp iContinent iLine iDistrict].
  change (str "中国") with china. change [str "台湾"; str "中国台湾"] with taiwan.
  destruct (negb (bytes_eqb co china)); [reflexivity|]. destruct (in_array pr taiwan); reflexivity.
Qed.
Lemma select7_length co pr ci is as_ ct di : length (select7 co pr ci is as_ ct di) = 7.
Proof. unfold select7. destruct (negb _); [|destruct (in_array _ _)]; reflexivity. Qed.

Lemma apply_after F file content rule ops d0 d : DumpFile F file content rule [] = Ok d0 -> apply_ops ops d0 = Ok d ->
  DumpFile F file content rule ops = Ok d.
Proof.
  unfold DumpFile. destruct content as [c|]; [|discriminate].
  destruct (GetDumpFormat F (path_ext file)) as [create|]; [|discriminate]. destruct (create c (ParseRule rule)) as [x| | |]; cbn [bind apply_ops]; try discriminate.
  intros H A. assert (x = d0) as -> by congruence. exact A.
Qed.

(** The rows of an ipdb file dumped with the default rule. *)
Lemma ipdb_source E file data d0 il1 q1 :
  path_ext file = str ".ipdb" -> DumpFile (converterFormats E) file (Some data) (converterRule (str "default")) [] = Ok d0 ->
  NewDbFromBytes (serverFormats E) il1 (str ".ipdb") data = Ok q1 ->
  let rows := dIps (contents d0) in let t := vIpType (hVersion d0) in
  exists bs, legal d0 /\ hFields d0 = seven /\ Forall (full d0) (hRows d0) /\
    Forall2 (fun r b => net_is (cidr r) b) rows bs /\ tiles (fam_first (dump_family t)) bs (fam_end (dump_family t)) /\
    Forall (fun b => v4b (base b) = negb (t =? 2)%Z) bs /\
    Forall (fun r => length (fvals r) = 7 /\ Forall (no_byte x09) (fvals r)) rows /\
    (forall j row b ip, nth_error rows j = Some row -> nth_error bs j = Some b -> valid_ip ip -> in_block b (addr ip) -> dumped_family t (addr ip) ->
       exists i, QueryStr q1 (ip_string ip) = Ok (Some i, prefix_len (addr ip) b, None) /\ drop_district (fval_info seven (fvals row)) = selected i).
Proof.
  intros Hp HD HQ.
  change (converterRule (str "default")) with DefaultRule in *.
  destruct default_parsed as (e & Pe & Fe & Me).
  assert (exists dd, Export.dump (jUnMeta E) (eFuel E) data (Some e) = Ok dd /\ d0 = fresh (spare_of E (Some e)) dd) as (dd & D0 & Ed).
  { unfold DumpFile in HD. rewrite Hp in HD. rewrite Pe in HD.
    change (GetDumpFormat (converterFormats E) (str ".ipdb")) with (Some (fun data ept => fresh_of (spare_of E ept) (Export.dump (jUnMeta E) (eFuel E) data ept))) in HD.
    cbv beta iota in HD. destruct (Export.dump _ _ _ _) as [dd| | |]; try discriminate HD. exists dd. split; [reflexivity|].
    unfold fresh_of in HD. cbn [bind apply_ops] in HD. congruence. }
  destruct (fresh_spec (spare_of E (Some e)) dd) as (EC & Lg & _).
  destruct (open_query _ _ _ _ HQ) as (r & c & _ & O & T).
  destruct (dump_rows_by _ _ _ _ _ D0) as (r' & bs & O' & Ef & Ev & Ti & F2).
  rewrite O in O'. injection O' as <-. cbn [out_fields] in Ef, F2. rewrite Fe in Ef.
  rewrite <- Ed in EC, Lg.
  assert (EF : hFields d0 = seven) by (change (dFields (contents d0) = seven); rewrite EC; exact Ef).
  assert (EV : vIpType (hVersion d0) = IpType (rMeta r)) by (change (vIpType (dVersion (contents d0)) = IpType (rMeta r)); rewrite EC, Ev; reflexivity).
  assert (ERc : dIps (contents d0) = dIps dd) by (rewrite EC; reflexivity).
  assert (Sel : forall row b, dumped_by r (fun ret v => exported CommonFieldsMap (Some e) (eFields e) (field_map (mFields (rMeta r)) ret) v) row b ->
     length (fvals row) = 7 /\ Forall (no_byte x09) (fvals row) /\
     forall ip, valid_ip ip -> in_block b (addr ip) -> dumped_family (IpType (rMeta r)) (addr ip) ->
       exists i, QueryStr q1 (ip_string ip) = Ok (Some i, prefix_len (addr ip) b, None) /\ drop_district (fval_info seven (fvals row)) = selected i).
  { intros row b [D1 D2 D3 D4 (ret & Sh & X & G)]. cbn [exported] in X. apply (default_exports e _ _ _ Me Fe) in X. cbv beta zeta in X.
    repeat match type of X with context [field_value CommonFieldsMap _ ?f] => erewrite (field_value_colc _ _ f) in X by in_common end.
    rewrite X. split; [apply select7_length|]. split.
    { apply select7_tab. destruct Sh as [_ St _]. repeat (constructor; [apply colc_tab; assumption|]). constructor. }
    intros ip V B Fm. exists (make_info (mFields (rMeta r)) ret). split.
    { rewrite C47_str by assumption. rewrite T. rewrite G by assumption. reflexivity. }
    rewrite select7_info with (d := colc fDistrict (combine (mFields (rMeta r)) ret)) (l := colc fLine (combine (mFields (rMeta r)) ret)).
    f_equal. unfold make_info. rewrite make_info_cols. reflexivity. }
  exists bs. split; [assumption|]. split; [assumption|]. split; [rewrite Ed; apply fresh_full; reflexivity|].
  split.
  { rewrite ERc. clear - F2. induction F2 as [|x y l m H F2 IH]; constructor; [apply (dr_net _ _ _ _ H)|assumption]. }
  split.
  { rewrite EV. assumption. }
  split.
  { rewrite EV. clear - F2. induction F2 as [|x y l m H F2 IH]; constructor; [apply (dr_family _ _ _ _ H)|assumption]. }
  split.
  { rewrite ERc. apply Forall_forall. intros row I. apply In_nth_error in I as [j Hj].
    destruct (Forall2_nth _ _ _ F2 j row Hj) as (b & Hb & H). destruct (Sel _ _ H) as (S1 & S2 & _). auto. }
  rewrite ERc, EV. intros j row b ip Hr Hb V B Fm. destruct (Forall2_nth _ _ _ F2 j row Hr) as (b' & Hb' & H).
    assert (b' = b) as -> by congruence. destruct (Sel _ _ H) as (_ & _ & S3). auto.
Qed.
Lemma convert_ipdb : forall E order grow file data d0 ipList1 ipList2 q1 line,
  (forall k m, Permutation (order k m) m) ->
  path_ext file = str ".ipdb" -> DumpFile (converterFormats E) file (Some data) (converterRule (str "default")) [] = Ok d0 ->
  NewDbFromBytes (serverFormats E) ipList1 (str ".ipdb") data = Ok q1 ->
  match line with None => True | Some q => never_crashes q end ->
  exists d, DumpFile (converterFormats E) file (Some data) (converterRule (str "default")) (converterOps order grow (option_map (fun q => (q, false)) line)) = Ok d /\
    ((forall row, In row (dIps (contents d)) -> (N.of_nat (length (join x09 (fvals row))) < 65536)%N) ->
     (vIpType (hVersion d0) = 2%Z -> forall row, In row (dIps (contents d)) -> (val (nMask (cidr row)) <> 0)%N) ->
     json_ok (jMeta E) (jUnMeta E) (eNow E) (contents d) ->
     exists data2, PackBytes (converterFormats E) (str ".ipdb") d = Ok (data2, d) /\
       ((Z.of_nat (length data2) < 2 ^ 32)%Z ->
        exists q2, NewDbFromBytes (serverFormats E) ipList2 (str ".ipdb") data2 = Ok q2 /\
          forall ip, valid_ip ip -> dumped_family (vIpType (hVersion d0)) (addr ip) ->
            exists i m i' m', QueryStr q1 (ip_string ip) = Ok (Some i, m, None) /\
              QueryStr q2 (ip_string ip) = Ok (Some i', m', None) /\ m' <= m /\
              lined line (fun j => exists ip' i0 m0, valid_ip ip' /\ dumped_family (vIpType (hVersion d0)) (addr ip') /\
                                      QueryStr q1 (ip_string ip') = Ok (Some i0, m0, None) /\ j = selected i0) (selected i) ip m' i')).
Proof.
  intros E order grow file data d0 il1 il2 q1 line Perm Hp HD HQ HLn.
  destruct (ipdb_source E file data d0 il1 q1 Hp HD HQ) as (bs & Lg & EF & Fl & Nets & Ti & Fb & Good & Row).
  destruct (convert_selected E order grow d0 bs il2 (fun ip i m => QueryStr q1 (ip_string ip) = Ok (Some i, m, None)) selected line) as (d & Ea & Pk);
    try assumption.
  { intros. congruence. }
  { destruct line as [q|]; [split; assumption|exact I]. }
  exists d. split; [eapply apply_after; eassumption|exact Pk].
Qed.

(** C58: converting an ipdb file with the default rule and the default operations. *)
Theorem C58_ipdb : forall E order grow file data d0 ipList1 ipList2 q1,
  (forall k m, Permutation (order k m) m) ->
  path_ext file = str ".ipdb" -> DumpFile (converterFormats E) file (Some data) (converterRule (str "default")) [] = Ok d0 ->
  NewDbFromBytes (serverFormats E) ipList1 (str ".ipdb") data = Ok q1 ->
  exists d, DumpFile (converterFormats E) file (Some data) (converterRule (str "default")) (converterOps order grow None) = Ok d /\
    ((forall row, In row (dIps (contents d)) -> (N.of_nat (length (join x09 (fvals row))) < 65536)%N) ->
     (vIpType (hVersion d0) = 2%Z -> forall row, In row (dIps (contents d)) -> (val (nMask (cidr row)) <> 0)%N) ->
     json_ok (jMeta E) (jUnMeta E) (eNow E) (contents d) ->
     exists data2, PackBytes (converterFormats E) (str ".ipdb") d = Ok (data2, d) /\
       ((Z.of_nat (length data2) < 2 ^ 32)%Z ->
        exists q2, NewDbFromBytes (serverFormats E) ipList2 (str ".ipdb") data2 = Ok q2 /\
          forall ip, valid_ip ip -> dumped_family (vIpType (hVersion d0)) (addr ip) ->
            exists i m i' m', QueryStr q1 (ip_string ip) = Ok (Some i, m, None) /\
              QueryStr q2 (ip_string ip) = Ok (Some i', m', None) /\ m' <= m /\
              improved_by (fun j => exists ip' i0 m0, valid_ip ip' /\ dumped_family (vIpType (hVersion d0)) (addr ip') /\
                                      QueryStr q1 (ip_string ip') = Ok (Some i0, m0, None) /\ j = selected i0) (selected i) i')).
Proof. intros E order grow file data d0 il1 il2 q1 Perm Hp HD HQ. exact (convert_ipdb E order grow file data d0 il1 il2 q1 None Perm Hp HD HQ I). Qed.
Print Assumptions C58_ipdb.

(* ---------- awdb input ---------- *)
(** A successful dump of an IPv4 awdb file, row by row. *)
Lemma aw_rows_by fuel data r ept d : aw_open data = Ok r ->
  (aNodeCount (wMeta r) * aRecordSize (wMeta r) < 2 ^ 64)%N -> aIPVersion (wMeta r) <> 6%N -> aw_dump fuel data ept = Ok d ->
  dFields d = out_fields awFieldsMap awFields ept /\ dVersion d = aw_version r /\
  exists bs, tiles v4base bs (v4base + 2 ^ 32)%N /\
    Forall2 (fun row b => net_is (cidr row) b /\ length (nIP (cidr row)) = 4 /\ v4b (base b) = true /\ exists rec, exported awFieldsMap ept (dFields d) rec (fvals row) /\
      forall ip, valid_ip ip -> in_block b (addr ip) ->
        exists m, LookupNetwork r ip = Ok (cidr row, Some (VMap m)) /\ strings_of (final_map m) = Ok rec) (dIps d) bs.
Proof.
  intros O Hlt N6 D. unfold aw_dump in D. rewrite O in D. cbn [bind] in D.
  destruct (open_reads data r O Hlt) as [tbl R].
  assert (Hv : has_v4_nodes r) by (intros E; congruence).
  destruct (BuildIPData _ _ _ _ _ _) as [[ofs rows]| | |] eqn:B; try discriminate. cbn [bind] in D. injection D as <-. cbn [dFields dIps dVersion].
  assert (Fam := family4 r N6). assert (Ok4 := aw_finder_ok r tbl R Hv).
  destruct (C19_success_covers fuel awFieldsMap awFields ept (aw_version r) (aw_find r) ofs rows aw_map_nodup) as (E & bs & T & F2 & _);
    [rewrite Fam; exact Ok4|exact B|].
  rewrite Fam in T. cbn [fam4 fam_first fam_end] in T. split; [exact E|]. split; [reflexivity|]. exists bs. split; [assumption|].
  pose proof (tiles_all _ _ _ T) as TA. clear T B.
  induction F2 as [|row b rows bs (Hn & ip0 & rec & V0 & A0 & F0 & X) F2 IH]; constructor; [|apply IH; intros; apply TA; right; assumption].
  destruct (TA b (or_introl eq_refl)) as (Al & A1 & A2). assert (P := pow_pos (logsz b)).
  assert (V40 : is_v4 (addr ip0)) by (unfold is_v4; rewrite A0; lia).
  apply aw_find_inv in F0 as (m & H0 & Sm).
  destruct (C35_network_ipv4 r tbl ip0 _ _ R Hv V0 V40 H0) as (b0 & B1 & B2 & B3 & B4 & B5).
  rewrite (net_is_fun _ _ _ B1 Hn) in *.
  split; [assumption|]. split; [assumption|]. split; [apply v4b_iff; rewrite <- A0; exact V40|]. exists rec. split; [assumption|].
  intros ip V I. exists m. split; [apply B5; assumption|assumption].
Qed.

(** An answer without its AS number. *)
Definition without_asn (i : IpInfo) : IpInfo :=
  mkInfo (iCountry i) (iDistrict i) (iProvince i) (iCity i) [] (iIsp i) (iContinent i) (iLine i).

Lemma convert_awdb : forall E order grow file data d0 ipList2 r line,
  (forall k m, Permutation (order k m) m) ->
  path_ext file = str ".awdb" -> aw_open data = Ok r ->
  (aNodeCount (wMeta r) * aRecordSize (wMeta r) < 2 ^ 64)%N -> aIPVersion (wMeta r) <> 6%N ->
  (forall ip net m, valid_ip ip -> is_v4 (addr ip) -> LookupNetwork r ip = Ok (net, Some (VMap m)) -> ~ In (str "asn") (map fst m)) ->
  DumpFile (converterFormats E) file (Some data) (converterRule (str "default")) [] = Ok d0 ->
  (forall row, In row (dIps (contents d0)) -> Forall (no_byte x09) (fvals row)) ->
  match line with None => True | Some q => never_crashes q end ->
  exists d, DumpFile (converterFormats E) file (Some data) (converterRule (str "default")) (converterOps order grow (option_map (fun q => (q, false)) line)) = Ok d /\
    ((forall row, In row (dIps (contents d)) -> (N.of_nat (length (join x09 (fvals row))) < 65536)%N) ->
     json_ok (jMeta E) (jUnMeta E) (eNow E) (contents d) ->
     exists data2, PackBytes (converterFormats E) (str ".ipdb") d = Ok (data2, d) /\
       ((Z.of_nat (length data2) < 2 ^ 32)%Z ->
        exists q2, NewDbFromBytes (serverFormats E) ipList2 (str ".ipdb") data2 = Ok q2 /\
          forall ip, valid_ip ip -> is_v4 (addr ip) ->
            exists i m i' m', QueryStr (QAwdb r) (ip_string ip) = Ok (Some i, m, None) /\
              QueryStr q2 (ip_string ip) = Ok (Some i', m', None) /\ m' <= m /\
              lined line (fun j => exists ip' i0 m0, valid_ip ip' /\ is_v4 (addr ip') /\
                                      QueryStr (QAwdb r) (ip_string ip') = Ok (Some i0, m0, None) /\ j = selected (without_asn i0))
                (selected (without_asn i)) ip m' i')).
Proof.
  intros E order grow file data d0 il2 r line Perm Hp HO Hlt N6 Na HD HT HLn.
  change (converterRule (str "default")) with DefaultRule in *.
  destruct default_parsed as (e & Pe & Fe & Me).
  assert (exists dd, aw_dump (eFuel E) data (Some e) = Ok dd /\ d0 = fresh (spare_of E (Some e)) dd) as (dd & D0 & Ed).
  { unfold DumpFile in HD. rewrite Hp in HD. rewrite Pe in HD.
    change (GetDumpFormat (converterFormats E) (str ".awdb")) with (Some (fun data ept => fresh_of (spare_of E ept) (aw_dump (eFuel E) data ept))) in HD.
    cbv beta iota in HD. destruct (aw_dump _ _ _) as [dd| | |]; try discriminate HD. exists dd. split; [reflexivity|].
    unfold fresh_of in HD. cbn [bind apply_ops] in HD. congruence. }
  destruct (fresh_spec (spare_of E (Some e)) dd) as (EC & Lg & _).
  destruct (aw_rows_by _ _ _ _ _ HO Hlt N6 D0) as (Ef & Ev & bs & Ti & F2). cbn [out_fields] in Ef.
  assert (Ef7 : dFields dd = seven) by (rewrite Ef; exact Fe).
  rewrite <- Ed in EC, Lg.
  assert (EF : hFields d0 = seven) by (change (dFields (contents d0) = seven); rewrite EC; exact Ef7).
  assert (EV : dump_family (vIpType (hVersion d0)) = fam4).
  { change (dump_family (vIpType (dVersion (contents d0))) = fam4). rewrite EC, Ev. apply family4. assumption. }
  assert (N2 : vIpType (hVersion d0) <> 2%Z).
  { intros Q. rewrite Q in EV. discriminate EV. }
  assert (Fm4 : forall a, dumped_family (vIpType (hVersion d0)) a <-> is_v4 a).
  { intros a. unfold dumped_family. destruct (Z.eqb_spec (vIpType (hVersion d0)) 2); [contradiction|]. apply v4b_iff. }
  assert (ERc : dIps (contents d0) = dIps dd) by (rewrite EC; reflexivity).
  assert (Sel : forall row b, (net_is (cidr row) b /\ length (nIP (cidr row)) = 4 /\ v4b (base b) = true /\
       exists rec, exported awFieldsMap (Some e) (dFields dd) rec (fvals row) /\
         forall ip, valid_ip ip -> in_block b (addr ip) ->
           exists m, LookupNetwork r ip = Ok (cidr row, Some (VMap m)) /\ strings_of (final_map m) = Ok rec) ->
     length (fvals row) = 7 /\
     forall ip, valid_ip ip -> in_block b (addr ip) -> is_v4 (addr ip) ->
       exists i, QueryStr (QAwdb r) (ip_string ip) = Ok (Some i, prefix_len (addr ip) b, None) /\ drop_district (fval_info seven (fvals row)) = selected (without_asn i)).
  { intros row b (Hn & L4 & B4 & rec & X & G). cbn [exported] in X. apply (default_exports e _ _ _ Me Fe) in X. cbv beta zeta in X.
    rewrite X. split; [apply select7_length|].
    intros ip V B V4. destruct (G ip V B) as (m & HL & HS).
    assert (AF : aw_find r ip = Ok (cidr row, rec)) by (unfold aw_find; rewrite HL; cbn [bind]; now rewrite HS).
    eexists. split.
    { rewrite C47_str by assumption. unfold DbQuery, q_query, aw_query. rewrite AF. cbn [bind triple].
      rewrite (mask_size_net _ _ Hn), L4. cbn [fst]. unfold prefix_len. apply v4b_iff in V4. rewrite V4.
      do 2 f_equal. f_equal. lia. }
    rewrite select7_info with (d := []) (l := field_value awFieldsMap rec (str "line")). f_equal.
    unfold without_asn. cbn [iCountry iProvince iCity iAsn iIsp iContinent iLine iDistrict].
    assert (forall f, assoc f awFieldsMap = Some f -> field_value awFieldsMap rec f = sget f rec) as FV.
    { intros f Hf. unfold field_value. rewrite Hf. apply assoc_sget. }
    rewrite !FV by reflexivity. f_equal.
    pose proof (sget_text m rec (str "asn") HS (strings_text _ _ HS)) as [(v & Hl & _)|[_ Q]]; [|exact Q].
    exfalso. apply (Na _ _ _ V V4 HL). destruct Hl as (m1 & m2 & -> & _). rewrite map_app. apply in_or_app. right. left. reflexivity. }
  destruct (convert_selected E order grow d0 bs il2 (fun ip i m => QueryStr (QAwdb r) (ip_string ip) = Ok (Some i, m, None)) (fun i => selected (without_asn i)) line) as (d & Ea & Pk);
    try assumption.
  { rewrite ERc. clear - F2. induction F2 as [|x y l m H F2 IH]; constructor; [apply H|assumption]. }
  { rewrite EV. assumption. }
  { destruct (Z.eqb_spec (vIpType (hVersion d0)) 2); [contradiction|]. clear - F2. induction F2 as [|x y l m H F2 IH]; constructor; [apply H|assumption]. }
  { apply Forall_forall. intros row I. split; [|apply HT; assumption]. rewrite ERc in I. apply In_nth_error in I as [j Hj].
    destruct (Forall2_nth _ _ _ F2 j row Hj) as (b & Hb & H). apply (Sel _ _ H). }
  { intros. congruence. }
  { rewrite ERc. intros j row b ip Hr Hb V B Fm. destruct (Forall2_nth _ _ _ F2 j row Hr) as (b' & Hb' & H).
    assert (b' = b) as -> by congruence. apply (Sel _ _ H); try assumption. apply Fm4. assumption. }
  { destruct line as [q|]; [|exact I]. split; [assumption|]. rewrite Ed. apply fresh_full. reflexivity. }
  exists d. split; [eapply apply_after; eassumption|]. intros HL HJ.
  destruct (Pk HL ltac:(intros Q; contradiction) HJ) as (data2 & P & Q). exists data2. split; [assumption|].
  intros Hs. destruct (Q Hs) as (q2 & O2 & Q2). exists q2. split; [assumption|].
  intros ip V V4. destruct (Q2 ip V (proj2 (Fm4 _) V4)) as (i & m & i' & m' & A1 & A2 & A3 & A4).
  exists i, m, i', m'. split; [assumption|]. split; [assumption|]. split; [assumption|].
  assert (Imp : forall x x', improved_by (fun j => exists ip' i0 m0, valid_ip ip' /\ dumped_family (vIpType (hVersion d0)) (addr ip') /\
      QueryStr (QAwdb r) (ip_string ip') = Ok (Some i0, m0, None) /\ j = selected (without_asn i0)) x x' ->
    improved_by (fun j => exists ip' i0 m0, valid_ip ip' /\ is_v4 (addr ip') /\
      QueryStr (QAwdb r) (ip_string ip') = Ok (Some i0, m0, None) /\ j = selected (without_asn i0)) x x').
  { intros x0 x0' [I1 I2 I3 I4 I5 I6 I7 (n & I8 & I9)]. constructor; try assumption.
  exists n. split; [assumption|]. destruct I9 as [[I9 K]|(I9 & I10 & j & (ip' & i0 & m0 & J1 & J2 & J3) & J4)].
  - left. split; [assumption|]. destruct K as [K|K]; [left; assumption|right].
    intros j x (ip' & i0 & m0 & J1 & J2 & J3). apply K. exists ip', i0, m0. split; [assumption|]. split; [apply Fm4; assumption|assumption].
  - right. split; [assumption|]. split; [assumption|]. exists j. split; [|assumption]. exists ip', i0, m0.
    split; [assumption|]. split; [apply Fm4; assumption|assumption].
} 
  destruct line as [q|]; cbn [lined] in A4 |- *; [destruct A4; split; auto|auto].
Qed.

(** C58: converting an IPv4 awdb file with the default rule and the default operations: AS
    numbers are lost (the file has them as asnumber, the rule asks for asn). *)
Theorem C58_awdb : forall E order grow file data d0 ipList2 r,
  (forall k m, Permutation (order k m) m) ->
  path_ext file = str ".awdb" -> aw_open data = Ok r ->
  (aNodeCount (wMeta r) * aRecordSize (wMeta r) < 2 ^ 64)%N -> aIPVersion (wMeta r) <> 6%N ->
  (forall ip net m, valid_ip ip -> is_v4 (addr ip) -> LookupNetwork r ip = Ok (net, Some (VMap m)) -> ~ In (str "asn") (map fst m)) ->
  DumpFile (converterFormats E) file (Some data) (converterRule (str "default")) [] = Ok d0 ->
  (forall row, In row (dIps (contents d0)) -> Forall (no_byte x09) (fvals row)) ->
  exists d, DumpFile (converterFormats E) file (Some data) (converterRule (str "default")) (converterOps order grow None) = Ok d /\
    ((forall row, In row (dIps (contents d)) -> (N.of_nat (length (join x09 (fvals row))) < 65536)%N) ->
     json_ok (jMeta E) (jUnMeta E) (eNow E) (contents d) ->
     exists data2, PackBytes (converterFormats E) (str ".ipdb") d = Ok (data2, d) /\
       ((Z.of_nat (length data2) < 2 ^ 32)%Z ->
        exists q2, NewDbFromBytes (serverFormats E) ipList2 (str ".ipdb") data2 = Ok q2 /\
          forall ip, valid_ip ip -> is_v4 (addr ip) ->
            exists i m i' m', QueryStr (QAwdb r) (ip_string ip) = Ok (Some i, m, None) /\
              QueryStr q2 (ip_string ip) = Ok (Some i', m', None) /\ m' <= m /\
              improved_by (fun j => exists ip' i0 m0, valid_ip ip' /\ is_v4 (addr ip') /\
                                      QueryStr (QAwdb r) (ip_string ip') = Ok (Some i0, m0, None) /\ j = selected (without_asn i0))
                (selected (without_asn i)) i')).
Proof. intros E order grow file data d0 il2 r Perm Hp HO Hlt N6 Na HD HT. exact (convert_awdb E order grow file data d0 il2 r None Perm Hp HO Hlt N6 Na HD HT I). Qed.
Print Assumptions C58_awdb.

(** C58: because blanked rows have the empty AS number, one address at home with a main
    operator and no AS number gives every address abroad a main operator. *)
Theorem C58_operator_abroad : forall all i i' j x, iCountry i <> str "中国" -> improved_by all (selected i) i' ->
  all j -> iAsn j = [] -> normal_name (str "isp") (iIsp j) x -> main_operator x ->
  main_operator (iIsp i').
Proof.
  intros all i i' j x Nc [_ _ _ _ _ _ _ (n & Nn & I)] Hj Ha Nx Mx.
  assert (selected i = mkInfo (iCountry i) [] [] [] [] [] (iContinent i) []) as Es.
  { unfold selected. destruct (bytes_eqb_spec (iCountry i) (str "中国")); [contradiction|reflexivity]. }
  rewrite Es in *. cbn [iIsp iAsn] in *.
  destruct I as [[-> [M|K]]|(_ & M & _)]; [assumption| |assumption].
  exfalso. apply (K j x Hj Ha Nx Mx).
Qed.
Print Assumptions C58_operator_abroad.
(** ... and an awdb file is always affected, as soon as it has one such address. *)
Theorem C58_awdb_operator_abroad : forall E order grow file data d0 ipList2 r ip0 i0 m0 x,
  (forall k m, Permutation (order k m) m) ->
  path_ext file = str ".awdb" -> aw_open data = Ok r ->
  (aNodeCount (wMeta r) * aRecordSize (wMeta r) < 2 ^ 64)%N -> aIPVersion (wMeta r) <> 6%N ->
  (forall ip net m, valid_ip ip -> is_v4 (addr ip) -> LookupNetwork r ip = Ok (net, Some (VMap m)) -> ~ In (str "asn") (map fst m)) ->
  DumpFile (converterFormats E) file (Some data) (converterRule (str "default")) [] = Ok d0 ->
  (forall row, In row (dIps (contents d0)) -> Forall (no_byte x09) (fvals row)) ->
  valid_ip ip0 -> is_v4 (addr ip0) -> QueryStr (QAwdb r) (ip_string ip0) = Ok (Some i0, m0, None) ->
  iCountry i0 = str "中国" -> ~ In (iProvince i0) [str "台湾"; str "中国台湾"] -> normal_name (str "isp") (iIsp i0) x -> main_operator x ->
  exists d, DumpFile (converterFormats E) file (Some data) (converterRule (str "default")) (converterOps order grow None) = Ok d /\
    ((forall row, In row (dIps (contents d)) -> (N.of_nat (length (join x09 (fvals row))) < 65536)%N) ->
     json_ok (jMeta E) (jUnMeta E) (eNow E) (contents d) ->
     exists data2, PackBytes (converterFormats E) (str ".ipdb") d = Ok (data2, d) /\
       ((Z.of_nat (length data2) < 2 ^ 32)%Z ->
        exists q2, NewDbFromBytes (serverFormats E) ipList2 (str ".ipdb") data2 = Ok q2 /\
          forall ip i m, valid_ip ip -> is_v4 (addr ip) -> QueryStr (QAwdb r) (ip_string ip) = Ok (Some i, m, None) ->
            iCountry i <> str "中国" ->
            exists i' m', QueryStr q2 (ip_string ip) = Ok (Some i', m', None) /\ iCountry i' = iCountry i /\ main_operator (iIsp i'))).
Proof.
  intros E order grow file data d0 il2 r ip0 i0 m0 x Perm Hp HO Hlt N6 Na HD HT V0 V40 Q0 C0 P0 Nx Mx.
  destruct (C58_awdb E order grow file data d0 il2 r) as (d & D & Pk); try assumption.
  exists d. split; [assumption|]. intros HL HJ. destruct (Pk HL HJ) as (data2 & P & Q). exists data2. split; [assumption|].
  intros Hs. destruct (Q Hs) as (q2 & O2 & Q2). exists q2. split; [assumption|].
  intros ip i m V V4 Qi Nc. destruct (Q2 ip V V4) as (i1 & m1 & i' & m' & A1 & A2 & _ & A4).
  assert (i1 = i) as -> by congruence.
  exists i', m'. split; [assumption|]. split.
  { rewrite (ib_country _ _ _ A4). unfold selected. cbn [without_asn iCountry]. destruct (negb _); [reflexivity|]. destruct (in_array _ _); reflexivity. }
  eapply (C58_operator_abroad _ (without_asn i) i' (selected (without_asn i0)) x); [exact Nc|exact A4| | | |exact Mx].
  - exists ip0, i0, m0. auto.
  - unfold selected. cbn [without_asn iAsn iCountry]. destruct (negb _); [reflexivity|]. destruct (in_array _ _); reflexivity.
  - assert (selected (without_asn i0) = mkInfo (iCountry i0) [] (iProvince i0) (iCity i0) [] (iIsp i0) (iContinent i0) []) as ->; [|exact Nx].
    unfold selected. cbn [without_asn iCountry iProvince iCity iAsn iIsp iContinent]. rewrite C0. rewrite bytes_eqb_refl. cbn [negb].
    destruct (in_array (iProvince i0) _) eqn:Ia; [exfalso; apply P0, in_array_iff; assumption|reflexivity].
Qed.
Print Assumptions C58_awdb_operator_abroad.

(* ------------------------------------------------------------------ *)
(** A case: the American half of this awdb file gets a Chinese operator. *)
Definition recC := encode (VMap [(str "country", VStr (str "中国")); (str "province", VStr (str "浙江")); (str "isp", VStr (str "电信"))]).
Definition recU := encode (VMap [(str "country", VStr (str "美国")); (str "city", VStr (str "洛杉矶")); (str "isp", VStr (str "谷歌")); (str "asnumber", VStr (str "15169"))]).
Definition aw_cn : bytes := aw_file 1 24 4 (node_bytes 24 (17%N, (17 + len recC)%N)) (recC ++ recU ++ repeat x00 2000).
Definition aw_env : env := mkEnv (marshal_meta true true) unmarshal_meta (marshal_version true true) unmarshal_version 0 [] [] 10 (fun _ => 1).
Definition cn_done : IpData := mkData seven (mkVersion 1 2 0 (str "ipplus360") [] [])
  [ mkRaw (mkNet (repeat x00 10 ++ [xff; xff; x00; x00; x00; x00]) (repeat xff 12 ++ [x80; x00; x00; x00])) [str "中国"; str "浙江"; []; str "电信"; []; []; str "华东"];
    mkRaw (mkNet (repeat x00 10 ++ [xff; xff; x80; x00; x00; x00]) (repeat xff 12 ++ [x80; x00; x00; x00])) [str "美国"; []; []; str "电信"; []; []; []] ].
Definition cn_first : list IpRaw :=
  [ mkRaw (mkNet [x00; x00; x00; x00] [x80; x00; x00; x00]) [str "中国"; str "浙江"; []; str "电信"; []; []; []];
    mkRaw (mkNet [x80; x00; x00; x00] [x80; x00; x00; x00]) [str "美国"; []; []; []; []; []; []] ].
Definition keys_ok (x : res (IPNet * option value)) (n : IPNet) : bool :=
  match x with
  | Ok (n', Some (VMap m)) => bytes_eqb (nIP n') (nIP n) && bytes_eqb (nMask n') (nMask n) && negb (in_array (str "asn") (map fst m))
  | _ => false
  end.
Example C58_awdb_case : path_ext (str "a.awdb") = str ".awdb" /\
  (exists r d0 d, aw_open aw_cn = Ok r /\
    (aNodeCount (wMeta r) * aRecordSize (wMeta r) < 2 ^ 64)%N /\ aIPVersion (wMeta r) <> 6%N /\
    (forall ip net m, valid_ip ip -> is_v4 (addr ip) -> LookupNetwork r ip = Ok (net, Some (VMap m)) -> ~ In (str "asn") (map fst m)) /\
    DumpFile (converterFormats aw_env) (str "a.awdb") (Some aw_cn) (converterRule (str "default")) [] = Ok d0 /\
    dIps (contents d0) = cn_first /\
    (forall row, In row (dIps (contents d0)) -> Forall (no_byte x09) (fvals row)) /\
    DumpFile (converterFormats aw_env) (str "a.awdb") (Some aw_cn) (converterRule (str "default")) (converterOps (fun _ m => m) (fun _ => 1) None) = Ok d /\
    contents d = cn_done) /\
  (forall row, In row (dIps cn_done) -> (N.of_nat (length (join x09 (fvals row))) < 65536)%N) /\
  json_ok (jMeta aw_env) (jUnMeta aw_env) (eNow aw_env) cn_done.
Proof.
  split; [reflexivity|]. split.
  { destruct (opened_spec aw_cn (fun r => size_ok r && (aIPVersion (wMeta r) =? 4)%N &&
      keys_ok (LookupNetwork r [x00;x00;x00;x00]) (mkNet [x00;x00;x00;x00] [x80;x00;x00;x00]) &&
      keys_ok (LookupNetwork r [x80;x00;x00;x00]) (mkNet [x80;x00;x00;x00] [x80;x00;x00;x00]))) as (r & O & H).
    { vm_compute. reflexivity. }
    apply andb_prop in H as [H H4]. apply andb_prop in H as [H H3]. apply andb_prop in H as [H1 H2].
    apply N.ltb_lt in H1. apply N.eqb_eq in H2.
    assert (match DumpFile (converterFormats aw_env) (str "a.awdb") (Some aw_cn) (converterRule (str "default")) [] with Ok d => Some (dIps (contents d)) | _ => None end = Some cn_first) as R0
      by (vm_compute; reflexivity).
    assert (match DumpFile (converterFormats aw_env) (str "a.awdb") (Some aw_cn) (converterRule (str "default")) (converterOps (fun _ m => m) (fun _ => 1) None) with Ok d => Some (contents d) | _ => None end = Some cn_done) as R1
      by (vm_compute; reflexivity).
    destruct (DumpFile _ _ _ _ []) as [d0| | |]; try discriminate R0.
    destruct (DumpFile _ _ _ _ (converterOps _ _ _)) as [d| | |]; try discriminate R1.
    exists r, d0, d. split; [assumption|]. split; [assumption|]. split; [rewrite H2; discriminate|]. split.
    { destruct (open_reads _ r O H1) as [tbl R]. assert (Hv : has_v4_nodes r) by (intros Q; rewrite H2 in Q; discriminate Q).
      assert (forall ip0 n b, valid_ip ip0 -> is_v4 (addr ip0) -> keys_ok (LookupNetwork r ip0) n = true -> net_is n b ->
        forall ip net m, valid_ip ip -> in_block b (addr ip) -> LookupNetwork r ip = Ok (net, Some (VMap m)) -> ~ In (str "asn") (map fst m)) as G.
      { intros ip0 n b V0 V40 K Hn ip net m V B L. destruct (LookupNetwork r ip0) as [[n0 [v0|]]| | |] eqn:L0; try discriminate K.
        destruct v0; try discriminate K. cbn [keys_ok] in K. apply andb_prop in K as [K K3]. apply andb_prop in K as [K1 K2].
        apply bytes_eqb_iff in K1, K2. assert (n0 = n) as -> by (destruct n0, n; cbn in *; congruence).
        destruct (C35_network_ipv4 r tbl ip0 _ _ R Hv V0 V40 L0) as (b0 & B1 & _ & _ & _ & B5).
        rewrite (net_is_fun _ _ _ B1 Hn) in B5. rewrite (B5 ip V B) in L. injection L as <- <-.
        intros I. apply in_array_iff in I. rewrite I in K3. discriminate K3. }
      intros ip net m V V4 L.
      assert (in_block (mkBlock v4base 31) (addr ip) \/ in_block (mkBlock (v4base + 2 ^ 31)%N 31) (addr ip)) as [B|B].
      { unfold is_v4 in V4. unfold in_block. cbn [base logsz]. change (2 ^ 32)%N with 4294967296%N in V4. change (2 ^ 31)%N with 2147483648%N. lia. }
      - refine (G _ _ (mkBlock v4base 31) _ _ H3 _ ip net m V B L); [left; reflexivity|vm_compute; split; [discriminate|reflexivity]|].
        constructor; try reflexivity; [left; reflexivity|vm_compute; discriminate].
      - refine (G _ _ (mkBlock (v4base + 2 ^ 31)%N 31) _ _ H4 _ ip net m V B L); [left; reflexivity|vm_compute; split; [discriminate|reflexivity]|].
        constructor; try reflexivity; [left; reflexivity|vm_compute; discriminate]. }
    split; [reflexivity|]. assert (dIps (contents d0) = cn_first) as E0 by congruence. split; [assumption|]. split.
    { rewrite E0. intros row I. cbn [cn_first In] in I. destruct I as [<-|[<-|[]]]; cbn [fvals]; repeat (constructor; [apply no_tabb_ok; vm_compute; reflexivity|]); constructor. }
    split; [reflexivity|congruence]. }
  split. { intros row I. cbn [cn_done dIps In] in I. destruct I as [<-|[<-|[]]]; vm_compute; reflexivity. }
  apply C54_json_ok; [|unfold int64; cbn; lia].
  constructor; cbn [cn_done seven dFields dVersion vVersion vExtra]; [repeat (constructor; [ascii|]); constructor|ascii|constructor].
Qed.

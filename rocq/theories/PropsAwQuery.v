(** C40, C41, C49-C51: awdb queries, dumps and opening files.  Statements use Spec,
    SpecExport (dumps) and SpecAwTree (node tables, records). *)
From Coq Require Import Sorting.Sorted.
From Verif Require Import Base NetIP IpNet Spec IpNetProofs SplitProofs IpNetProofs2 Ipdb Export SpecExport ExportProofs BuildProofs PropsExport Bits AwDecode SpecAw AwDecodeProofs AwTree SpecAwTree AwTreeProofs AwIterProofs PropsAwTree.
Open Scope N_scope.
Local Arguments N.of_nat : simpl never.

(** ** Records *)
Lemma bytes_eqb_iff a b : bytes_eqb a b = true <-> a = b.
Proof. destruct (bytes_eqb_spec a b); split; congruence. Qed.
Lemma final_map_in m k v : In (k, v) (final_map m) <-> last_assigned m k v.
Proof.
  induction m as [|[k0 v0] m IH]; cbn [final_map].
  { split; [intros []|]. intros (m1 & m2 & E & _). destruct m1; discriminate. }
  assert (X : existsb (fun kv => bytes_eqb (fst kv) k0) m = true <-> In k0 (map fst m)).
  { rewrite existsb_exists, in_map_iff. split; intros ([k1 v1] & A & B).
    - apply bytes_eqb_iff in B. exists (k1, v1). auto.
    - exists (k1, v1). cbn [fst] in *. split; [assumption|]. now apply bytes_eqb_iff. }
  assert (Y : last_assigned ((k0, v0) :: m) k v <-> last_assigned m k v \/ ((k, v) = (k0, v0) /\ ~ In k (map fst m))).
  { split.
    - intros ([|p m1] & m2 & E & N); cbn [app] in E; injection E as <- E2; [right|left].
      + subst. auto. + exists m1, m2. auto.
    - intros [(m1 & m2 & -> & N)|[[= -> ->] N]]; [exists ((k0, v0) :: m1), m2|exists [], m]; auto. }
  destruct (existsb _ m) eqn:E.
  - rewrite IH, Y. split; [auto|]. intros [H|[[= -> ->] N]]; [assumption|]. exfalso. apply N, X. reflexivity.
  - cbn [In]. rewrite IH, Y. split; intros [H|H]; auto; [|destruct H; auto].
    right. injection H as <- <-. split; [reflexivity|]. intros I. apply X in I. discriminate.
Qed.
Lemma final_map_keys m k : In k (map fst (final_map m)) <-> In k (map fst m).
Proof.
  induction m as [|[k0 v0] m IH]; cbn [final_map map fst In]; [tauto|].
  destruct (existsb _ m) eqn:E; cbn [map fst In]; rewrite IH; [|tauto].
  split; [auto|]. intros [<-|H]; [|assumption]. apply existsb_exists in E as ([k1 v1] & A & B). apply bytes_eqb_iff in B. cbn in B. subst.
  apply in_map_iff. exists (k0, v1). auto.
Qed.
Lemma final_map_nodup m : NoDup (map fst (final_map m)).
Proof.
  induction m as [|[k0 v0] m IH]; cbn [final_map]; [constructor|].
  destruct (existsb _ m) eqn:E; [assumption|]. cbn [map fst]. constructor; [|assumption].
  rewrite final_map_keys, in_map_iff. intros ([k1 v1] & <- & I). cbn [fst] in *.
  assert (existsb (fun kv => bytes_eqb (fst kv) k1) m = true); [|congruence].
  apply existsb_exists. exists (k1, v1). split; [assumption|]. now apply bytes_eqb_iff.
Qed.
Lemma strings_of_ok m : (forall k v, In (k, v) m -> exists s, text_of v s) ->
  exists l, strings_of m = Ok l /\ map fst l = map fst m /\ forall k s, In (k, s) l <-> exists v, In (k, v) m /\ text_of v s.
Proof.
  induction m as [|[k v] m IH]; intros H.
  - exists []. repeat split; auto; [intros []|intros (v & [] & _)].
  - destruct IH as (l & E & K & I); [intros; eapply H; right; eassumption|].
    destruct (H k v (or_introl eq_refl)) as [s Hs]. exists ((k, s) :: l).
    split; [|split].
    + cbn [strings_of]. destruct Hs as [-> | ->]; rewrite E; reflexivity.
    + cbn [map fst]. now rewrite K.
    + intros k' s'. cbn [In]. rewrite I. split.
      * intros [[= <- <-]|(v' & A & B)]; eauto.
      * intros (v' & [[= <- <-]|A] & B); [left|right; eauto]. f_equal.
        destruct Hs as [-> | ->], B as [B|B]; congruence.
Qed.
Lemma strings_of_panic m k v : In (k, v) m -> (forall s, ~ text_of v s) -> strings_of m = Panic.
Proof.
  induction m as [|[k0 v0] m IH]; intros Hi Hn; [destruct Hi|]. cbn [strings_of].
  destruct Hi as [[= -> ->]|Hi].
  - destruct v; try reflexivity; exfalso; [apply (Hn s)|apply (Hn s)]; [now left|now right].
  - rewrite (IH Hi Hn). destruct v0; reflexivity.
Qed.
Lemma text_dec v : (exists s, text_of v s) \/ (forall s, ~ text_of v s).
Proof. destruct v; try (right; intros s' [H|H]; discriminate); left; exists s; [now left|now right]. Qed.
Lemma sget_text m l k : strings_of (final_map m) = Ok l -> text_record m -> text_at m k (sget k l).
Proof.
  intros E T. destruct (strings_of_ok (final_map m)) as (l' & E' & K & I).
  { intros k' v' Hi. apply (T k' v'). now apply final_map_in. }
  rewrite E in E'. injection E' as <-. unfold sget, text_at.
  destruct (find (fun kv => bytes_eqb (fst kv) k) l) as [[k1 s]|] eqn:F.
  - apply find_some in F as [F1 F2]. apply bytes_eqb_iff in F2. cbn [fst] in F2. subst k1. left.
    apply I in F1 as (v & A & B). exists v. split; [now apply final_map_in|assumption].
  - right. split; [|reflexivity]. rewrite <- final_map_keys, <- K, in_map_iff. intros ([k1 s1] & <- & Hi).
    apply (find_none _ _ F) in Hi. cbn [fst] in Hi. assert (bytes_eqb k1 k1 = true) by now apply bytes_eqb_iff. congruence.
Qed.
Lemma aw_find_inv r ip n rec : aw_find r ip = Ok (n, rec) -> exists m, LookupNetwork r ip = Ok (n, Some (VMap m)) /\ strings_of (final_map m) = Ok rec.
Proof.
  unfold aw_find. destruct (LookupNetwork r ip) as [[n' [w|]]| | |]; try discriminate. cbn [bind].
  destruct w; try discriminate. destruct (strings_of (final_map m)) eqn:E; try discriminate. cbn [bind]. intros [= <- <-]. eauto.
Qed.
Lemma strings_text m l : strings_of (final_map m) = Ok l -> text_record m.
Proof.
  intros E k v Hl. destruct (text_dec v) as [H|H]; [assumption|].
  rewrite (strings_of_panic (final_map m) k v) in E; [discriminate|now apply final_map_in|assumption].
Qed.

(** ** C40 *)
(** An address whose walk ends in the empty record crashes the query (and the dumper's
    lookup) instead of giving an error. *)
Theorem C40_no_data_crashes : forall r tbl ip c j v, reads r tbl -> has_v4_nodes r -> valid_ip ip -> own_spelling ip c ->
  (length c = 16%nat -> aIPVersion (wMeta r) <> 4) -> (j <= 8 * length c)%nat ->
  reach tbl 0 (tree_bits (aIPVersion (wMeta r)) c j) v -> no_data tbl v ->
  aw_query r ip = Panic /\ aw_find r ip = Panic.
Proof.
  intros r tbl ip c j v R Hv V Own HV Hj Hr Nd.
  destruct (C35_lookup_walk r tbl ip c j v R Hv V Own HV Hj Hr) as (net & b & _ & _ & _ & _ & _ & H & _).
  unfold aw_query, aw_find. rewrite (H Nd). split; reflexivity.
Qed.
(** Exactly which answers crash: no data, data that is not a map, or a map with a value
    in force that has no text. *)
Theorem C40_crash_iff : forall r ip net rec, LookupNetwork r ip = Ok (net, rec) ->
  (aw_query r ip = Panic <-> ~ exists m, rec = Some (VMap m) /\ text_record m).
Proof.
  intros r ip net rec H. unfold aw_query, aw_find. rewrite H. cbn [bind].
  destruct rec as [w|]; [|cbn [bind]; split; [intros _ (m & E & _); discriminate|reflexivity]].
  assert (NM : (forall m, w <> VMap m) -> ~ exists m, Some w = Some (VMap m) /\ text_record m).
  { intros N (m & [= ->] & _). now apply (N m). }
  destruct w; try (split; [intros _; apply NM; discriminate|reflexivity]).
  destruct (strings_of (final_map m)) as [l| | |] eqn:E; cbn [bind].
  - split; [discriminate|]. intros N. exfalso. apply N. exists m. split; [reflexivity|]. now apply strings_text with l.
  - exfalso. clear - E. revert E. generalize (final_map m) as l. induction l as [|[k v] l IH]; cbn [strings_of]; [discriminate|].
    destruct v; try discriminate; (destruct (strings_of l); try discriminate; exact IH).
  - split; [|reflexivity]. intros _ (m' & [= <-] & T).
    destruct (strings_of_ok (final_map m)) as (l & E' & _); [|congruence].
    intros k v Hi. apply (T k v). now apply final_map_in.
  - exfalso. clear - E. revert E. generalize (final_map m) as l. induction l as [|[k v] l IH]; cbn [strings_of]; [discriminate|].
    destruct v; try discriminate; (destruct (strings_of l); try discriminate; exact IH).
Qed.
(** A map with texts gives its fields and the prefix length of the network; an error of
    the lookup is returned. *)
Theorem C40_fields : forall r ip net m, LookupNetwork r ip = Ok (net, Some (VMap m)) -> text_record m ->
  exists info, aw_query r ip = Ok (info, fst (mask_size (nMask net))) /\
    text_at m (str "country") (iCountry info) /\ text_at m (str "province") (iProvince info) /\
    text_at m (str "city") (iCity info) /\ text_at m (str "isp") (iIsp info) /\
    text_at m (str "asnumber") (iAsn info) /\ text_at m (str "continent") (iContinent info) /\
    text_at m (str "line") (iLine info) /\ iDistrict info = [].
Proof.
  intros r ip net m H T. unfold aw_query, aw_find. rewrite H. cbn [bind].
  destruct (strings_of_ok (final_map m)) as (l & E & _).
  { intros k v Hi. apply (T k v). now apply final_map_in. }
  rewrite E. cbn [bind]. eexists. split; [reflexivity|]. cbn [iCountry iProvince iCity iIsp iAsn iContinent iLine iDistrict].
  repeat (split; [apply sget_text; assumption|]). reflexivity.
Qed.
Theorem C40_error : forall r ip e, LookupNetwork r ip = Err e -> aw_query r ip = Err e /\ aw_find r ip = Err e.
Proof. intros r ip e H. unfold aw_query, aw_find. rewrite H. split; reflexivity. Qed.
(** The text is unique, so these equations determine the answer. *)
Lemma text_at_fun m k s s' : text_at m k s -> text_at m k s' -> s = s'.
Proof.
  assert (G : forall v v', last_assigned m k v -> last_assigned m k v' -> v = v').
  { intros v v' H H'. apply final_map_in in H, H'. assert (N := final_map_nodup m).
    revert N H H'. generalize (final_map m) as l. induction l as [|[k1 v1] l IH]; intros N H H'; [destruct H|].
    cbn [map fst] in N. inversion N; subst. destruct H as [[= -> ->]|H], H' as [H'|H'].
    - congruence.
    - exfalso. apply H2. apply in_map_iff. exists (k, v'). auto.
    - injection H' as -> ->. exfalso. apply H2. apply in_map_iff. exists (k, v). auto.
    - auto. }
  assert (In' : forall v, last_assigned m k v -> In k (map fst m)).
  { intros v (m1 & m2 & -> & _). rewrite map_app, in_app_iff. right. now left. }
  intros [(v & A & B)|[A ->]] [(v' & A' & B')|[A' ->]]; auto; try (exfalso; eauto; fail).
  rewrite (G v v' A A') in *. destruct B as [-> | ->], B' as [B'|B']; congruence.
Qed.

(** ** C41 *)
Definition six : list bytes := map str ["country"; "province"; "city"; "isp"; "continent"; "line"]%string.
Definition six_of (i : IpInfo) : list bytes := [iCountry i; iProvince i; iCity i; iIsp i; iContinent i; iLine i].
Lemma assoc_sget {k : bytes} {m : list (bytes * bytes)} : match assoc k m with Some v => v | None => [] end = sget k m.
Proof.
  unfold sget. induction m as [|[k' v] m IH]; [reflexivity|]. cbn [assoc find fst].
  destruct (bytes_eqb k' k) eqn:E; [reflexivity|exact IH].
Qed.
(** Without a rule a dump has the six columns; their values are those of a query.  The
    AS number is not among them ... *)
Theorem C41_six_columns : forall r ip net rec info ones, aw_find r ip = Ok (net, rec) -> aw_query r ip = Ok (info, ones) ->
  out_fields awFieldsMap awFields None = six /\ row_values awFieldsMap None six rec = Ok (six_of info).
Proof.
  intros r ip net rec info ones F Q. split; [vm_compute; reflexivity|].
  unfold aw_query in Q. rewrite F in Q. cbn [bind] in Q. injection Q as <- _.
  unfold row_values, six_of, six. cbn [map iCountry iProvince iCity iIsp iContinent iLine].
  do 2 f_equal; [|f_equal; [|f_equal; [|f_equal; [|f_equal; [|f_equal]]]]]; apply (@assoc_sget (str _)).
Qed.
(** ... and with a rule that selects asn, the dump has the text of the key asn, the
    query that of the key asnumber. *)
Theorem C41_asn : forall r ip net m, LookupNetwork r ip = Ok (net, Some (VMap m)) -> text_record m ->
  exists rec info ones, aw_find r ip = Ok (net, rec) /\ aw_query r ip = Ok (info, ones) /\
    text_at m (str "asn") (field_value awFieldsMap rec (str "asn")) /\ text_at m (str "asnumber") (iAsn info) /\
    (~ In (str "asn") (map fst m) -> field_value awFieldsMap rec (str "asn") = []).
Proof.
  intros r ip net m H T. destruct (C40_fields r ip net m H T) as (info & Q & _ & _ & _ & _ & A & _).
  destruct (strings_of_ok (final_map m)) as (l & E & _).
  { intros k v Hi. apply (T k v). now apply final_map_in. }
  assert (F : aw_find r ip = Ok (net, l)) by (unfold aw_find; rewrite H; cbn [bind]; now rewrite E).
  exists l, info, (fst (mask_size (nMask net))). split; [assumption|]. split; [assumption|].
  assert (T1 : text_at m (str "asn") (field_value awFieldsMap l (str "asn"))).
  { assert (field_value awFieldsMap l (str "asn") = sget (str "asn") l) as ->; [|now apply sget_text].
    unfold field_value. replace (assoc (str "asn") awFieldsMap) with (Some (str "asn")) by reflexivity. apply assoc_sget. }
  split; [assumption|]. split; [assumption|]. intros Ni. apply (text_at_fun m (str "asn")); [assumption|]. right. auto.
Qed.

(** ** C49: dumping a database of IPv4 addresses *)
Lemma aw_finder_ok r tbl : reads r tbl -> has_v4_nodes r -> finder_ok fam4 (aw_find r).
Proof.
  intros R Hv. constructor; cbn [fam4 fam_first fam_end fam_len].
  - intros ip n rec V A H. apply aw_find_inv in H as (m & H & _).
    destruct (C35_network_ipv4 r tbl ip n _ R Hv V A H) as (b & B1 & B2 & B3 & B4 & _). eauto.
  - intros ip ip' n n' rec rec' b b' a V V' A A' H H' Hb Hb' I I'.
    apply aw_find_inv in H as (m & H & _). apply aw_find_inv in H' as (m' & H' & _).
    destruct (C35_network_ipv4 r tbl ip n _ R Hv V A H) as (c & B1 & B2 & B3 & B4 & B5).
    destruct (C35_network_ipv4 r tbl ip' n' _ R Hv V' A' H') as (c' & B1' & B2' & B3' & B4' & B5').
    rewrite (net_is_fun _ _ _ Hb B1), (net_is_fun _ _ _ Hb' B1') in *.
    assert (V4 := v4_block n c a B1 B2 B4 I). unfold is_v4, v4base in V4.
    destruct (ip_of_addr a) as (x & Vx & <-).
    { change (2 ^ 128) with 340282366920938463463374607431768211456. change (0xffff * 2 ^ 32) with 281470681743360 in V4. change (2 ^ 32) with 4294967296 in V4. lia. }
    assert (X1 := B5 x Vx I). assert (X2 := B5' x Vx I'). congruence.
Qed.
Lemma tiles_all s bs e : tiles s bs e -> forall b, In b bs -> aligned b /\ s <= base b /\ base b + 2 ^ logsz b <= e.
Proof.
  revert s. induction bs as [|c bs IH]; intros s T b Hi; [destruct Hi|]. destruct T as (T1 & T2 & T3).
  assert (L := tiles_le _ _ _ T3). destruct Hi as [->|Hi]; [repeat split; try assumption; lia|].
  destruct (IH _ T3 b Hi) as (A & B & C). repeat split; try assumption. lia.
Qed.
Lemma aw_map_nodup : NoDup (map fst awFieldsMap).
Proof. vm_compute. repeat constructor; cbn; intuition discriminate. Qed.
Lemma six_fields ept : out_fields awFieldsMap awFields ept = match ept with None => six | Some e => eFields e end.
Proof. destruct ept; [reflexivity|vm_compute; reflexivity]. Qed.
(** Any successful dump of an IPv4 database covers the IPv4 addresses, and for every
    address it has what the query answers (without a rule). *)
Theorem C49_dump_is_query : forall fuel data r d, aw_open data = Ok r ->
  aNodeCount (wMeta r) * aRecordSize (wMeta r) < 2 ^ 64 -> aIPVersion (wMeta r) <> 6 ->
  aw_dump fuel data None = Ok d ->
  dFields d = six /\
  exists bs, tiles v4base bs (v4base + 2 ^ 32) /\ Forall2 (fun row b => net_is (cidr row) b) (dIps d) bs /\
    forall i row b ip, nth_error (dIps d) i = Some row -> nth_error bs i = Some b -> valid_ip ip -> in_block b (addr ip) ->
      exists info, aw_query r ip = Ok (info, (32 - N.to_nat (logsz b))%nat) /\ fvals row = six_of info.
Proof.
  intros fuel data r d O Hlt N6 D. unfold aw_dump in D. rewrite O in D. cbn [bind] in D.
  assert (exists tbl, reads r tbl) as [tbl R].
  { unfold aw_open in O. destruct (FromBytes data) as [r'| | |] eqn:E; try discriminate. cbn [bind] in O.
    destruct (aw_check r') as [u| | |]; try discriminate. cbn [bind] in O. injection O as ->. exact (FromBytes_reads data r E Hlt). }
  assert (Hv : has_v4_nodes r) by (intros E; congruence).
  destruct (BuildIPData _ _ _ _ _ _) as [[ofs rows]| | |] eqn:B; try discriminate. cbn [bind] in D. injection D as <-. cbn [dFields dIps].
  assert (Fam : dump_family (vIpType (aw_version r)) = fam4).
  { unfold aw_version. cbn [vIpType]. unfold aw_iptype. apply N.eqb_neq in N6. rewrite N6. destruct (aIPVersion (wMeta r) =? 4); reflexivity. }
  assert (Ok4 := aw_finder_ok r tbl R Hv).
  destruct (C19_success_covers fuel awFieldsMap awFields None (aw_version r) (aw_find r) ofs rows aw_map_nodup) as (E & bs & T & F2 & _);
    [rewrite Fam; exact Ok4|exact B|].
  rewrite six_fields in E. subst ofs. split; [reflexivity|]. rewrite Fam in T. cbn [fam4 fam_first fam_end] in T.
  exists bs. split; [assumption|]. split.
  { clear - F2. induction F2 as [|x b rows bs H _ IH]; constructor; [apply H|assumption]. }
  intros i row b ip Hr Hb V Hin.
  assert (row_at (aw_find r) (exported awFieldsMap None six) row b) as (Hn & ip0 & rec & V0 & A0 & F0 & X).
  { clear - F2 Hr Hb. revert i Hr Hb. induction F2 as [|x c rows bs H _ IH]; intros [|i] Hr Hb; try discriminate; cbn in Hr, Hb.
    - injection Hr as ->. injection Hb as ->. assumption.
    - eauto. }
  assert (A : aligned b /\ v4base <= base b /\ base b + 2 ^ logsz b <= v4base + 2 ^ 32).
  { clear - T Hb. assert (T1 := tiles_all _ _ _ T). apply nth_error_In in Hb. apply T1. assumption. }
  destruct A as (Al & A1 & A2). assert (P := pow_pos (logsz b)).
  assert (V40 : is_v4 (addr ip0)) by (unfold is_v4; rewrite A0; lia).
  assert (F0' := F0). apply aw_find_inv in F0' as (m & H0 & Sm).
  destruct (C35_network_ipv4 r tbl ip0 _ _ R Hv V0 V40 H0) as (b0 & B1 & B2 & B3 & B4 & B5).
  rewrite (net_is_fun _ _ _ B1 Hn) in *. assert (H1 := B5 ip V Hin).
  destruct (C40_fields r ip (cidr row) m H1 (strings_text _ _ Sm)) as (info & Q & _).
  rewrite (mask_size_net _ _ Hn), B4 in Q. cbn [fst] in Q. exists info. split; [exact Q|].
  assert (F1 : aw_find r ip = Ok (cidr row, rec)) by (unfold aw_find; rewrite H1; cbn [bind]; now rewrite Sm).
  destruct (C41_six_columns r ip _ _ _ _ F1 Q) as [_ Rv]. cbn [exported] in X. rewrite X.
  destruct (row_values_exported awFieldsMap None awFields rec aw_map_nodup) as (vs & Ev & Xv).
  rewrite six_fields in Ev, Xv. cbn [exported] in Xv. rewrite Rv in Ev. injection Ev as <-. symmetry. exact Xv.
Qed.
(** It succeeds if every IPv4 address has an answer, and only then. *)
Lemma open_reads data r : aw_open data = Ok r -> aNodeCount (wMeta r) * aRecordSize (wMeta r) < 2 ^ 64 -> exists tbl, reads r tbl.
Proof.
  intros O Hlt. unfold aw_open in O. destruct (FromBytes data) as [r'| | |] eqn:E; try discriminate. cbn [bind] in O.
  destruct (aw_check r') as [u| | |]; try discriminate. cbn [bind] in O. injection O as ->. exact (FromBytes_reads data r E Hlt).
Qed.
Lemma query_find r ip info ones : aw_query r ip = Ok (info, ones) -> exists n rec, aw_find r ip = Ok (n, rec).
Proof. unfold aw_query. destruct (aw_find r ip) as [[n rec]| | |]; try discriminate. eauto. Qed.
Lemma find_query r ip n rec : aw_find r ip = Ok (n, rec) -> exists x, aw_query r ip = Ok x.
Proof. intros H. unfold aw_query. rewrite H. cbn [bind]. eauto. Qed.
Lemma family4 r : aIPVersion (wMeta r) <> 6 -> dump_family (vIpType (aw_version r)) = fam4.
Proof.
  intros N6. unfold aw_version. cbn [vIpType]. unfold aw_iptype. apply N.eqb_neq in N6. rewrite N6. destruct (aIPVersion (wMeta r) =? 4); reflexivity.
Qed.
Theorem C49_dump_total : forall data r ept, aw_open data = Ok r ->
  aNodeCount (wMeta r) * aRecordSize (wMeta r) < 2 ^ 64 -> aIPVersion (wMeta r) <> 6 ->
  ((exists fuel d, aw_dump fuel data ept = Ok d) <->
   (forall ip, valid_ip ip -> is_v4 (addr ip) -> exists x, aw_query r ip = Ok x)).
Proof.
  intros data r ept O Hlt N6. destruct (open_reads data r O Hlt) as [tbl R].
  assert (Hv : has_v4_nodes r) by (intros E; congruence). assert (Ok4 := aw_finder_ok r tbl R Hv). assert (Fam := family4 r N6).
  split.
  - intros (fuel & d & D) ip V V4. unfold aw_dump in D. rewrite O in D. cbn [bind] in D.
    destruct (BuildIPData _ _ _ _ _ _) as [[ofs rows]| | |] eqn:B; try discriminate.
    destruct (C19_success_covers fuel awFieldsMap awFields ept (aw_version r) (aw_find r) ofs rows aw_map_nodup) as (_ & bs & T & F2 & _);
      [rewrite Fam; exact Ok4|exact B|].
    rewrite Fam in T. cbn [fam4 fam_first fam_end] in T. destruct (tiles_covers _ _ _ T) as [_ C]. destruct (proj2 (C (addr ip)) V4) as (b & Hb & Hin).
    assert (exists row, row_at (aw_find r) (exported awFieldsMap ept ofs) row b) as (row & Hn & ip0 & rec & V0 & A0 & F0 & _).
    { clear - F2 Hb. revert Hb. induction F2 as [|x c rows' bs' Hx _ IH]; intros Hb; [destruct Hb|]. destruct Hb as [->|Hb]; eauto. }
    destruct (tiles_all _ _ _ T b Hb) as (_ & A1 & A2). assert (P := pow_pos (logsz b)).
    assert (V40 : is_v4 (addr ip0)) by (unfold is_v4; rewrite A0; lia).
    apply aw_find_inv in F0 as (m & H0 & Sm).
    destruct (C35_network_ipv4 r tbl ip0 _ _ R Hv V0 V40 H0) as (b0 & B1 & B2 & B3 & B4 & B5).
    rewrite (net_is_fun _ _ _ B1 Hn) in *. assert (H1 := B5 ip V Hin).
    apply find_query with (cidr row) rec. unfold aw_find. rewrite H1. cbn [bind]. now rewrite Sm.
  - intros H.
    destruct (C19_dump_covers awFieldsMap awFields ept (aw_version r) (aw_find r) aw_map_nodup) as (fuel & rows & bs & B & _).
    + rewrite Fam. exact Ok4.
    + rewrite Fam. intros ip V V4. destruct (H ip V V4) as [[info ones] Q]. exact (query_find _ _ _ _ Q).
    + exists fuel. eexists. unfold aw_dump. rewrite O. cbn [bind]. rewrite (B fuel) by lia. cbn [bind]. reflexivity.
Qed.

(** ** C50: dumping an IPv6 database *)
Lemma aw_net r tbl m n rec : reads r tbl -> valid_ip m -> aw_find r m = Ok (n, rec) -> exists b, net_is n b /\ aligned b /\
  (has_v4_nodes r \/ ~ is_v4 (addr m) -> in_block b (addr m) /\ (length (nIP n) = 4%nat <-> is_v4 (addr m))).
Proof.
  intros R V F. apply aw_find_inv in F as (mm & H & _).
  destruct (canon_spec m V) as (Vc & Ac & Lc).
  assert (D : is_v4 (addr m) \/ ~ is_v4 (addr m)) by (unfold is_v4; lia).
  destruct D as [D|D].
  - destruct (N.eq_dec (aIPVersion (wMeta r)) 6) as [E6|E6].
    + destruct (Nat.eq_dec (wV4Depth r) 96) as [E|E].
      * destruct (C35_network_ipv4 r tbl m n _ R (fun _ => E) V D H) as (b & B1 & B2 & B3 & B4 & _).
        exists b. split; [assumption|]. split; [assumption|]. intros _. split; [assumption|tauto].
      * assert (Hd : (wV4Depth r < 96)%nat) by (destruct (rd_v6 _ _ R E6) as [_ [X|[X _]]]; lia).
        destruct (C35_shallow_ipv4 r tbl m R E6 Hd V D) as (S1 & _ & _ & S2 & S3).
        eexists. assert (n = mkNet IPv6zero (CIDRMask (Z.of_nat (wV4Depth r)) 128)) as ->.
        { destruct (N.lt_trichotomy (wV4Start r) (N.of_nat (length tbl))) as [L|[L|L]].
          - destruct (rd_v6 _ _ R E6) as [_ [X|[_ X]]]; [lia|]. exfalso. now apply X.
          - rewrite (S2 L) in H. congruence.
          - rewrite (S3 L) in H. destruct (retrieveData r (wV4Start r)); try discriminate. cbn [bind] in H. congruence. }
        split; [exact S1|]. split; [unfold aligned; cbn [base]; apply N.mod_0_l, N.pow_nonzero; discriminate|].
        intros [X|X]; [specialize (X E6); lia|contradiction].
    + assert (Hv : has_v4_nodes r) by (intros X; congruence).
      destruct (C35_network_ipv4 r tbl m n _ R Hv V D H) as (b & B1 & B2 & B3 & B4 & _).
      exists b. split; [assumption|]. split; [assumption|]. intros _. split; [assumption|tauto].
  - destruct (C35_network_ipv6 r tbl m n _ R V D H) as (b & B1 & B2 & B3 & B4 & _).
    exists b. split; [assumption|]. split; [assumption|]. intros _. split; [assumption|]. rewrite B4. split; [discriminate|contradiction].
Qed.
Lemma next_marker n b last next : net_is n b -> aligned b -> LastIP n = Ok last -> IsAllMask last = false -> NextStart n = Ok next ->
  valid_ip next /\ addr next = base b + 2 ^ logsz b /\ length next = length (nIP n) /\
  val (nIP n) + 2 ^ logsz b < 2 ^ (8 * N.of_nat (length (nIP n))).
Proof.
  intros Hn Ha El Am Nx. assert (V := ni_len _ _ Hn).
  destruct (LastIP_aligned n b Hn Ha) as (last' & E1 & E2 & E3). rewrite El in E1. injection E1 as <-.
  assert (Ln : length next = length (nIP n)).
  { unfold NextStart in Nx. rewrite El in Nx. cbn [bind] in Nx. injection Nx as <-. rewrite NextIP_length. congruence. }
  assert (exists fam, (fam = fam4 \/ fam = fam6) /\ length (nIP n) = fam_len fam) as (fam & Hf & Lf).
  { destruct V as [V|V]; [exists fam4|exists fam6]; auto. }
  destruct (net_step fam Hf n b Hn Ha Lf) as (l2 & L1 & F1 & F2 & F3). rewrite El in L1. injection L1 as <-. rewrite Am in F3.
  destruct F3 as (F3 & nx & N1 & N2 & N3). rewrite Nx in N1. injection N1 as <-.
  split; [assumption|]. split; [assumption|]. split; [assumption|].
  rewrite (ni_base _ _ Hn), addr_val in * by assumption.
  destruct Hf as [-> | ->]; cbn [fam4 fam6 fam_len fam_first fam_end] in *; rewrite Lf in *; cbn [Nat.eqb] in *;
    [change (8 * N.of_nat 4) with 32|change (8 * N.of_nat 16) with 128]; lia.
Qed.
Section Visit.
Variables (r : awReader) (tbl : list (N * N)) (values : list (bytes * bytes) -> res (list bytes)).
Hypothesis R : reads r tbl.
Hypothesis Hval : forall info, exists vs, values info = Ok vs.
Lemma visits_valid m0 m : valid_ip m0 -> visits (aw_find r) values m0 m -> valid_ip m.
Proof.
  intros V0 H. induction H as [|m n info vs last next H IH F Va La Am Nx]; [assumption|].
  destruct (aw_net r tbl m n info R IH F) as (b & B1 & B2 & _). now apply (next_marker n b last next B1 B2 La Am Nx).
Qed.
Lemma visits_asked m0 m : valid_ip m0 -> visits (aw_find r) values m0 m -> asked (aw_find r) m0 m.
Proof.
  intros V0 H. induction H as [|m n info vs last next H IH F Va La Am Nx]; [constructor|].
  destruct (aw_net r tbl m n info R (visits_valid m0 m V0 H) F) as (b & B1 & B2 & _).
  destruct (next_marker n b last next B1 B2 La Am Nx) as (N1 & N2 & N3 & N4).
  exact (asked_next _ _ m n info b next IH F B1 B2 N4 N3 N2).
Qed.
Lemma visits_front m0 m : visits (aw_find r) values m0 m -> m = m0 \/
  exists n info vs last next, aw_find r m0 = Ok (n, info) /\ values info = Ok vs /\ LastIP n = Ok last /\ IsAllMask last = false /\
    NextStart n = Ok next /\ visits (aw_find r) values next m.
Proof.
  induction 1 as [|m n info vs last next H IH F Va La Am Nx]; [now left|]. right. destruct IH as [->|(n0 & i0 & v0 & l0 & x0 & A & B & C & D & E & G)].
  - exists n, info, vs, last, next. repeat split; try assumption. constructor.
  - exists n0, i0, v0, l0, x0. repeat split; try assumption. eapply v_next; eassumption.
Qed.
(** A finder with the same answers for all visited addresses gives the same dump. *)
Lemma build_ext find' fuel m0 : (forall m, visits (aw_find r) values m0 m -> find' m = aw_find r m) ->
  build_loop find' values fuel m0 = build_loop (aw_find r) values fuel m0.
Proof.
  revert m0. induction fuel as [|k IH]; intros m0 H; [reflexivity|]. cbn [build_loop].
  rewrite (H m0) by constructor. destruct (aw_find r m0) as [[n info]| | |] eqn:F; try reflexivity. cbn [bind].
  destruct (values info) as [vs| | |] eqn:Va; try reflexivity. cbn [bind].
  destruct (LastIP n) as [last| | |] eqn:La; try reflexivity. cbn [bind]. destruct (IsAllMask last) eqn:Am; [reflexivity|].
  destruct (NextStart n) as [next| | |] eqn:Nx; try reflexivity. cbn [bind]. rewrite IH; [reflexivity|].
  intros m Hm. apply H. eapply visits_trans; [|exact Hm]. eapply v_next; [constructor|eassumption..].
Qed.
Lemma visits_le m0 m : has_v4_nodes r -> valid_ip m0 -> visits (aw_find r) values m0 m -> addr m0 <= addr m.
Proof.
  intros Hv V0 H. induction H as [|m n info vs last next H IH F Va La Am Nx]; [lia|].
  destruct (aw_net r tbl m n info R (visits_valid m0 m V0 H) F) as (b & B1 & B2 & B3).
  destruct (next_marker n b last next B1 B2 La Am Nx) as (N1 & N2 & _). destruct B3 as [[B3 B4] _]; [now left|].
  rewrite N2. lia.
Qed.
(** From an IPv4 address on, only IPv4 networks. *)
Lemma v4_tail fuel m rows : has_v4_nodes r -> valid_ip m -> is_v4 (addr m) -> build_loop (aw_find r) values fuel m = Ok rows ->
  Forall (fun row => length (nIP (cidr row)) = 4%nat /\ exists b, net_is (cidr row) b /\ aligned b) rows.
Proof.
  intros Hv. revert m rows. induction fuel as [|k IH]; intros m rows V V4 H; [discriminate|]. cbn [build_loop] in H.
  destruct (aw_find r m) as [[n info]| | |] eqn:F; cbn [bind] in *; try discriminate.
  destruct (values info) as [vs| | |] eqn:Va; cbn [bind] in *; try discriminate.
  destruct (LastIP n) as [last| | |] eqn:La; cbn [bind] in *; try discriminate.
  destruct (aw_net r tbl m n info R V F) as (b & B1 & B2 & B3). destruct B3 as [B3 B4]; [now left|]. apply B4 in V4.
  destruct (IsAllMask last) eqn:Am.
  { injection H as <-. constructor; [|constructor]. cbn [cidr]. eauto. }
  destruct (NextStart n) as [next| | |] eqn:Nx; cbn [bind] in *; try discriminate.
  destruct (build_loop (aw_find r) values k next) as [rest| | |] eqn:E; cbn [bind] in *; try discriminate.
  injection H as <-. constructor; [cbn [cidr]; eauto|].
  destruct (next_marker n b last next B1 B2 La Am Nx) as (N1 & N2 & N3 & N4). apply (IH next); [assumption| |assumption].
  unfold is_v4. rewrite N2, (ni_base _ _ B1), addr_val by apply (ni_len _ _ B1). rewrite V4 in *. cbn [Nat.eqb].
  change (8 * N.of_nat 4) with 32 in N4. assert (P := pow_pos (logsz b)). lia.
Qed.
Lemma rows_stop fuel m0 rows m : has_v4_nodes r -> valid_ip m0 -> visits (aw_find r) values m0 m -> is_v4 (addr m) ->
  build_loop (aw_find r) values fuel m0 = Ok rows ->
  Forall (fun row => exists b, net_is (cidr row) b /\ aligned b /\ base b + 2 ^ logsz b <= v4base + 2 ^ 32) rows.
Proof.
  intros Hv. revert m0 rows. induction fuel as [|k IH]; intros m0 rows V0 Hm V4 H; [discriminate|].
  destruct (visits_front m0 m Hm) as [->|(n & info & vs & last & next & F & Va & La & Am & Nx & Hm')].
  - eapply Forall_impl; [|exact (v4_tail (S k) m0 rows Hv V0 V4 H)]. intros row (L & b & B1 & B2). exists b.
    split; [assumption|]. split; [assumption|].
    destruct (net_step fam4 (or_introl eq_refl) (cidr row) b B1 B2 L) as (l & _ & _ & X & _). exact X.
  - cbn [build_loop] in H. rewrite F in H. cbn [bind] in H. rewrite Va in H. cbn [bind] in H. rewrite La in H. cbn [bind] in H.
    rewrite Am, Nx in H. cbn [bind] in H. destruct (build_loop (aw_find r) values k next) as [rest| | |] eqn:E; cbn [bind] in *; try discriminate.
    injection H as <-. destruct (aw_net r tbl m0 n info R V0 F) as (b & B1 & B2 & _).
    destruct (next_marker n b last next B1 B2 La Am Nx) as (N1 & N2 & _).
    constructor; [|exact (IH next rest N1 Hm' V4 E)]. cbn [cidr]. exists b. split; [assumption|]. split; [assumption|].
    rewrite <- N2. assert (Le := visits_le next m Hv N1 Hm'). unfold is_v4 in V4. lia.
Qed.
(** On a cycle of addresses the dump never ends. *)
Lemma cycle_runs fuel m : (exists n info vs last next, aw_find r m = Ok (n, info) /\ values info = Ok vs /\ LastIP n = Ok last /\
    IsAllMask last = false /\ NextStart n = Ok next /\ visits (aw_find r) values next m) ->
  build_loop (aw_find r) values fuel m = OutOfFuel.
Proof.
  revert m. induction fuel as [|k IH]; intros m (n & info & vs & last & next & F & Va & La & Am & Nx & Hm); [reflexivity|].
  cbn [build_loop]. rewrite F. cbn [bind]. rewrite Va. cbn [bind]. rewrite La. cbn [bind]. rewrite Am, Nx. cbn [bind].
  rewrite IH; [reflexivity|].
  destruct (visits_front next m Hm) as [E|(n2 & i2 & v2 & l2 & x2 & F2 & Va2 & La2 & Am2 & Nx2 & Hm2)].
  - subst next. exists n, info, vs, last, m. repeat split; try assumption.
  - exists n2, i2, v2, l2, x2. repeat split; try assumption. eapply v_next; eassumption.
Qed.
End Visit.
Definition only_v6 (r : awReader) (ip : bytes) : res (IPNet * list (bytes * bytes)) :=
  if (v4base <=? addr ip) && (addr ip <? v4base + 2 ^ 32) then Panic else aw_find r ip.
Lemma only_v6_non r ip : ~ is_v4 (addr ip) -> only_v6 r ip = aw_find r ip.
Proof. intros H. unfold only_v6, is_v4 in *. destruct (N.leb_spec v4base (addr ip)), (N.ltb_spec (addr ip) (v4base + 2 ^ 32)); try reflexivity. exfalso. apply H. lia. Qed.
Lemma only_v6_ok r ip x : only_v6 r ip = Ok x -> ~ is_v4 (addr ip) /\ aw_find r ip = Ok x.
Proof.
  unfold only_v6, is_v4. destruct (N.leb_spec v4base (addr ip)), (N.ltb_spec (addr ip) (v4base + 2 ^ 32)); cbn [andb]; intros E; try discriminate; split; try assumption; lia.
Qed.
Lemma only_v6_finder r tbl : reads r tbl -> finder_ok fam6 (only_v6 r).
Proof.
  intros R. constructor; cbn [fam6 fam_first fam_end fam_len].
  - intros ip n rec V A H. apply only_v6_ok in H as [N4 H]. apply aw_find_inv in H as (m & H & _).
    destruct (C35_network_ipv6 r tbl ip n _ R V N4 H) as (b & B1 & B2 & B3 & B4 & _). eauto.
  - assert (G : forall ip ip' n n' rec rec' b b' a, valid_ip ip -> valid_ip ip' ->
      only_v6 r ip = Ok (n, rec) -> only_v6 r ip' = Ok (n', rec') -> net_is n b -> net_is n' b' ->
      in_block b a -> in_block b' a -> logsz b <= logsz b' -> n = n').
    { intros ip ip' n n' rec rec' b b' a V V' H H' Hb Hb' I I' L.
      apply only_v6_ok in H as [N4 H]. apply only_v6_ok in H' as [N4' H'].
      apply aw_find_inv in H as (m & H & _). apply aw_find_inv in H' as (m' & H' & _).
      destruct (C35_network_ipv6 r tbl ip n _ R V N4 H) as (c & B1 & B2 & B3 & B4 & B5).
      destruct (C35_network_ipv6 r tbl ip' n' _ R V' N4' H') as (c' & B1' & B2' & B3' & B4' & B5').
      rewrite (net_is_fun _ _ _ Hb B1), (net_is_fun _ _ _ Hb' B1') in *.
      assert (X := B5' ip V N4 (aligned_nested c c' a B2 B2' I I' L _ B3)). congruence. }
    intros ip ip' n n' rec rec' b b' a V V' _ _ H H' Hb Hb' I I'.
    destruct (N.le_ge_cases (logsz b) (logsz b')) as [L|L].
    + exact (G ip ip' n n' rec rec' b b' a V V' H H' Hb Hb' I I' L).
    + symmetry. exact (G ip' ip n' n rec' rec b' b a V' V H' H Hb' Hb I' I L).
Qed.
Lemma version6 r : aIPVersion (wMeta r) = 6 -> dump_family (vIpType (aw_version r)) = fam6 /\ IsIpV6 (aw_version r) = true.
Proof. intros E. unfold aw_version, IsIpV6. cbn [vIpType]. unfold aw_iptype. rewrite E. split; reflexivity. Qed.
Lemma aw_values_total ept info : exists vs, row_values awFieldsMap ept (out_fields awFieldsMap awFields ept) info = Ok vs.
Proof. destruct (row_values_exported awFieldsMap ept awFields info aw_map_nodup) as (vs & E & _). eauto. Qed.
(** If the walk through the networks never has to ask for an IPv4 address, a successful
    dump covers all addresses and has what the queries of IPv6 addresses answer. *)
Theorem C50_covers : forall fuel data r d, aw_open data = Ok r ->
  aNodeCount (wMeta r) * aRecordSize (wMeta r) < 2 ^ 64 -> aIPVersion (wMeta r) = 6 ->
  (forall m, asked (aw_find r) IPv6zero m -> ~ is_v4 (addr m)) ->
  aw_dump fuel data None = Ok d ->
  dFields d = six /\
  exists bs, tiles 0 bs (2 ^ 128) /\ Forall2 (fun row b => net_is (cidr row) b) (dIps d) bs /\
    forall i row b ip, nth_error (dIps d) i = Some row -> nth_error bs i = Some b -> valid_ip ip -> ~ is_v4 (addr ip) ->
      in_block b (addr ip) ->
      exists info, aw_query r ip = Ok (info, (128 - N.to_nat (logsz b))%nat) /\ fvals row = six_of info.
Proof.
  intros fuel data r d O Hlt E6 NA D. destruct (open_reads data r O Hlt) as [tbl R].
  unfold aw_dump in D. rewrite O in D. cbn [bind] in D.
  destruct (version6 r E6) as [Fam V6].
  destruct (BuildIPData _ _ _ _ _ _) as [[ofs rows]| | |] eqn:B; try discriminate. cbn [bind] in D. injection D as <-. cbn [dFields dIps].
  assert (B' : BuildIPData fuel awFieldsMap awFields None (aw_version r) (only_v6 r) = Ok (ofs, rows)).
  { rewrite <- B. unfold BuildIPData. rewrite V6.
    rewrite (build_ext r (row_values awFieldsMap None (out_fields awFieldsMap awFields None)) (only_v6 r) fuel IPv6zero); [reflexivity|].
    intros m Hm. apply only_v6_non, NA. apply (visits_asked r tbl _ R IPv6zero m (or_intror eq_refl) Hm). }
  destruct (C19_success_covers fuel awFieldsMap awFields None (aw_version r) (only_v6 r) ofs rows aw_map_nodup) as (E & bs & T & F2 & _);
    [rewrite Fam; exact (only_v6_finder r tbl R)|exact B'|].
  rewrite six_fields in E. subst ofs. split; [reflexivity|]. rewrite Fam in T. cbn [fam6 fam_first fam_end] in T.
  exists bs. split; [assumption|]. split.
  { clear - F2. induction F2 as [|x b rows bs H _ IH]; constructor; [apply H|assumption]. }
  intros i row b ip Hr Hb V Nv Hin.
  assert (row_at (only_v6 r) (exported awFieldsMap None six) row b) as (Hn & ip0 & rec & V0 & A0 & F0 & X).
  { clear - F2 Hr Hb. revert i Hr Hb. induction F2 as [|x c rows bs H _ IH]; intros [|i] Hr Hb; try discriminate; cbn in Hr, Hb.
    - injection Hr as ->. injection Hb as ->. assumption.
    - eauto. }
  apply only_v6_ok in F0 as [N0 F0]. assert (F0' := F0). apply aw_find_inv in F0' as (m & H0 & Sm).
  destruct (C35_network_ipv6 r tbl ip0 _ _ R V0 N0 H0) as (b0 & B1 & B2 & B3 & B4 & B5).
  rewrite (net_is_fun _ _ _ B1 Hn) in *. assert (H1 := B5 ip V Nv Hin).
  destruct (C40_fields r ip (cidr row) m H1 (strings_text _ _ Sm)) as (info & Q & _).
  rewrite (mask_size_net _ _ Hn), B4 in Q. cbn [fst] in Q. exists info. split; [exact Q|].
  assert (F1 : aw_find r ip = Ok (cidr row, rec)) by (unfold aw_find; rewrite H1; cbn [bind]; now rewrite Sm).
  destruct (C41_six_columns r ip _ _ _ _ F1 Q) as [_ Rv]. cbn [exported] in X. rewrite X.
  destruct (row_values_exported awFieldsMap None awFields rec aw_map_nodup) as (vs & Ev & Xv).
  rewrite six_fields in Ev, Xv. cbn [exported] in Xv. rewrite Rv in Ev. injection Ev as <-. symmetry. exact Xv.
Qed.
(** If it has to ask for an IPv4 address (a network ends just before ::ffff:0:0) and IPv4
    addresses have their own nodes, a dump that succeeds has nothing behind the IPv4
    addresses: from 0:0:0:0:0:1:: on every address is missing. *)
Theorem C50_stops : forall fuel data r d ept m, aw_open data = Ok r ->
  aNodeCount (wMeta r) * aRecordSize (wMeta r) < 2 ^ 64 -> aIPVersion (wMeta r) = 6 -> has_v4_nodes r ->
  asked (aw_find r) IPv6zero m -> is_v4 (addr m) ->
  aw_dump fuel data ept = Ok d ->
  Forall (fun row => exists b, net_is (cidr row) b /\ base b + 2 ^ logsz b <= v4base + 2 ^ 32) (dIps d).
Proof.
  intros fuel data r d ept m O Hlt E6 Hv A V4 D. destruct (open_reads data r O Hlt) as [tbl R].
  unfold aw_dump in D. rewrite O in D. cbn [bind] in D. destruct (version6 r E6) as [_ V6].
  unfold BuildIPData in D. rewrite V6 in D.
  destruct (build_loop _ _ _ _) as [rows| | |] eqn:B; try discriminate. cbn [bind] in D. injection D as <-. cbn [dIps].
  set (values := row_values awFieldsMap ept (out_fields awFieldsMap awFields ept)) in *.
  assert (A' : visits (aw_find r) values IPv6zero m) by (apply asked_visits; [exact (aw_values_total ept)|exact A]).
  assert (X := rows_stop r tbl values R (aw_values_total ept) fuel IPv6zero rows m Hv (or_intror eq_refl) A' V4 B).
  eapply Forall_impl; [|exact X]. intros row (b & B1 & _ & B2). eauto.
Qed.
Lemma zero_bits j : (j <= 128)%nat -> firstn j (bits IPv6zero) = repeat false j.
Proof.
  intros H. change (bits IPv6zero) with (repeat false 128). revert H. generalize 128%nat as k.
  induction j as [|j IH]; intros [|k] H; try reflexivity; [lia|]. cbn [repeat firstn]. f_equal. apply IH. lia.
Qed.
(** In such a database the address :: and all IPv4 addresses have the same answer. *)
Lemma zero_same r tbl m : reads r tbl -> aIPVersion (wMeta r) = 6 -> (wV4Depth r < 96)%nat -> valid_ip m -> is_v4 (addr m) ->
  LookupNetwork r m = LookupNetwork r IPv6zero.
Proof.
  intros R E6 Hd V V4. destruct (C35_shallow_ipv4 r tbl m R E6 Hd V V4) as (_ & _ & Rz & S2 & S3).
  destruct (rd_v6 _ _ R E6) as [_ [X|[_ NI]]]; [lia|]. clear Rz. destruct (rd_v6 _ _ R E6) as [Rz _].
  assert (N4 : aIPVersion (wMeta r) <> 4) by (rewrite E6; discriminate).
  destruct (lookup_char r tbl R IPv6zero (or_intror eq_refl) (or_intror N4)) as (v & j & Hj & Rv & St & E). cbv zeta in *.
  change (canon IPv6zero) with IPv6zero in *. change (start r IPv6zero) with 0 in *. change (length (bits IPv6zero)) with 128%nat in *.
  destruct (walk_same tbl 0 IPv6zero IPv6zero (wV4Depth r) (wV4Start r) j v) as [E1 E2]; try assumption; try reflexivity.
  { rewrite bits_length. cbn [length IPv6zero]. change (length IPv6zero) with 16%nat. lia. }
  { rewrite zero_bits by lia. assumption. }
  subst j v. unfold LookupNetwork at 2. rewrite E.
  assert (Ec : aw_cidr r IPv6zero (wV4Depth r) = mkNet IPv6zero (CIDRMask (Z.of_nat (wV4Depth r)) 128)).
  { rewrite aw_cidr_wnet; [|right; reflexivity|change (length IPv6zero) with 16%nat; lia|discriminate].
    unfold wnet. f_equal.
    change 128%Z with (Z.of_nat 16 * 8)%Z. rewrite CIDRMask_ok; [reflexivity|right; reflexivity|lia]. }
  unfold inner in NI. destruct (N.eqb_spec (wV4Start r) (N.of_nat (length tbl))) as [L|L]; cbn [bind].
  - rewrite (S2 L). now rewrite N.eqb_refl, Ec.
  - destruct (N.ltb_spec (N.of_nat (length tbl)) (wV4Start r)); [|lia]. rewrite S3 by assumption. cbn [bind].
    destruct (N.eqb_spec (wV4Start r) 0); [lia|]. now rewrite Ec.
Qed.
(** Where IPv4 addresses have no nodes of their own, such a dump never ends: the answer
    for the IPv4 address is ::/d again. *)
Theorem C50_loops : forall data r ept m, aw_open data = Ok r ->
  aNodeCount (wMeta r) * aRecordSize (wMeta r) < 2 ^ 64 -> aIPVersion (wMeta r) = 6 -> (wV4Depth r < 96)%nat ->
  asked (aw_find r) IPv6zero m -> is_v4 (addr m) ->
  forall fuel, aw_dump fuel data ept = OutOfFuel.
Proof.
  intros data r ept m O Hlt E6 Hd A V4 fuel. destruct (open_reads data r O Hlt) as [tbl R].
  unfold aw_dump. rewrite O. cbn [bind]. destruct (version6 r E6) as [_ V6]. unfold BuildIPData. rewrite V6.
  set (values := row_values awFieldsMap ept (out_fields awFieldsMap awFields ept)) in *.
  assert (A' : visits (aw_find r) values IPv6zero m) by (apply asked_visits; [exact (aw_values_total ept)|exact A]).
  assert (Vm := visits_valid r tbl values R IPv6zero m (or_intror eq_refl) A').
  assert (Z := zero_same r tbl m R E6 Hd Vm V4).
  assert (Zf : aw_find r m = aw_find r IPv6zero) by (unfold aw_find; now rewrite Z).
  destruct (visits_front r values IPv6zero m A') as [->|(n & info & vs & last & next & F & Va & La & Am & Nx & Hm)].
  { exfalso. revert V4. unfold is_v4, v4base. change (addr IPv6zero) with 0. lia. }
  assert (L : build_loop (aw_find r) values fuel IPv6zero = build_loop (aw_find r) values fuel m).
  { destruct fuel; [reflexivity|]. cbn [build_loop]. now rewrite Zf. }
  rewrite L, (cycle_runs r values fuel m); [reflexivity|]. exists n, info, vs, last, next. rewrite Zf.
  repeat split; assumption.
Qed.

(** ** C51: opening arbitrary files *)
Lemma is_prefix_app p s : is_prefix p s = true -> exists t, s = p ++ t.
Proof.
  revert s. induction p as [|a p IH]; intros s H; [exists s; reflexivity|]. destruct s as [|b s]; [discriminate|].
  cbn [is_prefix] in H. apply andb_prop in H as [H1 H2]. destruct (byte_eqb_spec a b) as [<-|]; [|discriminate].
  destruct (IH s H2) as [t ->]. exists t. reflexivity.
Qed.
Lemma lastIndex_app s sep i : lastIndex s sep = Some i -> exists t, s = firstn i s ++ sep ++ t.
Proof.
  revert i. induction s as [|x s IH]; intros i H; cbn [lastIndex] in H.
  - destruct (is_prefix sep []) eqn:E; [|discriminate]. injection H as <-. destruct (is_prefix_app _ _ E) as [t Et]. exists t. exact Et.
  - destruct (lastIndex s sep) as [j|]; [injection H as <-; destruct (IH j eq_refl) as [t Et]; exists t; cbn [firstn app]; now f_equal|].
    destruct (is_prefix sep (x :: s)) eqn:E; [|discriminate]. injection H as <-. destruct (is_prefix_app _ _ E) as [t Et]. exists t. exact Et.
Qed.
(** A file shorter than 2000 bytes crashes. *)
Theorem C51_short : forall data, (length data < 2000)%nat -> FromBytes data = Panic /\ aw_open data = Panic.
Proof.
  intros data L. assert (F : FromBytes data = Panic) by (unfold FromBytes; destruct (Nat.ltb_spec (length data) 2000); [reflexivity|lia]).
  split; [assumption|]. unfold aw_open. now rewrite F.
Qed.
(** No other file crashes the reader, unless its metadata makes the size of the node
    table overflow 64 bits. *)
Theorem C51_open : forall data, (2000 <= length data)%nat -> FromBytes data = Panic ->
  exists front mbytes m, data = front ++ marker ++ mbytes /\
    decodeMeta mbytes (S (length mbytes)) (S (S (length mbytes))) max_depth 0 = Ok m /\
    2 ^ 64 <= aNodeCount m * aRecordSize m.
Proof.
  intros data L P. destruct (lastIndex (skipn (length data - 2000) data) marker) as [ms|] eqn:El.
  2:{ exfalso. apply (FromBytes_tame data L); [|assumption]. intros ms E. congruence. }
  set (mi := skipn (length data - 2000) data) in *. set (mb := skipn (ms + length marker) mi).
  assert (Eb : data = (firstn (length data - 2000) data ++ firstn ms mi) ++ marker ++ mb).
  { destruct (lastIndex_app _ _ _ El) as [t Et]. assert (Lf : (length (firstn ms mi) = ms)%nat).
    { apply firstn_length_le. apply (f_equal (@length byte)) in Et. rewrite !app_length in Et. assert (length (firstn ms mi) <= ms)%nat by apply firstn_le_length.
      assert (length marker = 16)%nat by reflexivity. rewrite firstn_length in *. lia. }
    assert (mb = t) as ->.
    { unfold mb. rewrite Et. rewrite (app_assoc (firstn ms mi)). rewrite skipn_app, app_length, Lf, Nat.sub_diag.
      rewrite skipn_all2 by (rewrite app_length; lia). reflexivity. }
    rewrite <- app_assoc, <- Et. symmetry. apply firstn_skipn. }
  destruct (decodeMeta mb (S (length mb)) (S (S (length mb))) max_depth 0) as [m| | |] eqn:Em.
  1: destruct (N.lt_ge_cases (aNodeCount m * aRecordSize m) (2 ^ 64)) as [Lt|Ge].
  2: { exists (firstn (length data - 2000) data ++ firstn ms mi), mb, m. auto. }
  all: exfalso; apply (FromBytes_tame data L); [|assumption]; intros ms' E'; fold mi in E'; rewrite El in E'; injection E' as <-;
    cbv zeta; intros m' E''; fold mi in E''; fold mb in E''; rewrite Em in E''; congruence.
Qed.
(** With a file that was opened, no address given to the lookup (of any length) crashes
    it, and neither does decoding a record. *)
Theorem C51_lookup : forall data r, FromBytes data = Ok r -> aNodeCount (wMeta r) * aRecordSize (wMeta r) < 2 ^ 64 ->
  forall ip, LookupNetwork r ip <> Panic.
Proof. intros data r F Hlt ip. destruct (FromBytes_reads data r F Hlt) as [tbl R]. now apply lookup_tame with tbl. Qed.

(** ** Examples: databases on which the theorems speak *)
(** A file: node table, 16 zero bytes, data section, marker, metadata. *)
Definition aw_file (nc rs ver : N) (nodes data : bytes) : bytes :=
  nodes ++ repeat x00 16 ++ data ++ marker ++
  encode (VMap [(str "node_count", VUint nc); (str "record_size", VUint rs); (str "ip_version", VUint ver)]).
Definition recA := encode (VMap [(str "country", VStr (str "A")); (str "asnumber", VStr (str "4134"))]).
Definition recB := encode (VMap [(str "country", VStr (str "B")); (str "city", VStr (str "c"))]).
Definition exdata := recA ++ recB ++ repeat x00 2000.
Definition pA (nc : N) : N := nc + 16.
Definition pB (nc : N) : N := nc + 16 + len recA.
(** IPv4: one node, 0.0.0.0/1 has record A, 128.0.0.0/1 record B. *)
Definition ex4 := aw_file 1 24 4 (node_bytes 24 (pA 1, pB 1)) exdata.
(** IPv6: ::/1 has A, 8000::/1 has B. *)
Definition ex6 := aw_file 1 24 6 (node_bytes 24 (pA 1, pB 1)) exdata.
(** IPv6: the networks beside the path to ::/96, and those beside the path to
    ::ffff:0:0/96, all with B; ::/96 itself has A. *)
Definition ones_path (nc from : N) : list (N * N) :=
  map (fun i => (pB nc, from + N.of_nat i + 1)) (seq 0 14) ++ [(pB nc, pB nc)].
Definition zeros (nc : N) (from k : nat) : list (N * N) := map (fun i => (N.of_nat i + 1, pB nc)) (seq from k).
Definition tbl_stop : list (N * N) := zeros 111 0 80 ++ [(81, 96)] ++ zeros 111 81 14 ++ [(pA 111, pB 111)] ++ ones_path 111 96.
Definition ex_stop := aw_file 111 24 6 (flat_map (node_bytes 24) tbl_stop) exdata.
(** The same, but the whole of ::/81 has A. *)
Definition tbl_loop : list (N * N) := zeros 96 0 80 ++ [(pA 96, 81)] ++ ones_path 96 81.
Definition ex_loop := aw_file 96 24 6 (flat_map (node_bytes 24) tbl_loop) exdata.
(** Metadata whose node table size overflows. *)
Definition ex_over ver := aw_file (2 ^ 61) 32 ver [] (repeat x00 2000).

(** Following the dump, n networks from m. *)
Fixpoint after_n (r : awReader) (n : nat) (m : bytes) : res bytes :=
  match n with
  | O => Ok m
  | S k => let* ' (net, _) := aw_find r m in
           let* last := LastIP net in if IsAllMask last then Err ErrInvalidDb else
           let* next := NextStart net in after_n r k next
  end.
Lemma after_asked r tbl n m x : reads r tbl -> valid_ip m -> after_n r n m = Ok x -> asked (aw_find r) m x.
Proof.
  intros R V H. apply (visits_asked r tbl (fun _ => Ok []) R m x V). revert m V H.
  induction n as [|n IH]; intros m V H; cbn [after_n] in H; [injection H as <-; constructor|].
  destruct (aw_find r m) as [[net info]| | |] eqn:F; cbn [bind] in *; try discriminate.
  destruct (LastIP net) as [last| | |] eqn:La; cbn [bind] in *; try discriminate. destruct (IsAllMask last) eqn:Am; [discriminate|].
  destruct (NextStart net) as [next| | |] eqn:Nx; cbn [bind] in *; try discriminate.
  destruct (aw_net r tbl m net info R V F) as (b & B1 & B2 & _). destruct (next_marker net b last next B1 B2 La Am Nx) as (N1 & _).
  eapply visits_trans; [eapply v_next; [constructor|eassumption|reflexivity|eassumption..]|now apply IH].
Qed.
Definition opened (data : bytes) (f : awReader -> bool) : bool := match aw_open data with Ok r => f r | _ => false end.
Lemma opened_spec data f : opened data f = true -> exists r, aw_open data = Ok r /\ f r = true.
Proof. unfold opened. destruct (aw_open data) as [r| | |]; try discriminate. eauto. Qed.
Lemma ok_spec {A} (x : res A) : match x with Ok _ => true | _ => false end = true -> exists a, x = Ok a.
Proof. destruct x as [a| | |]; intros H; [eauto|discriminate H..]. Qed.
Definition size_ok (r : awReader) : bool := aNodeCount (wMeta r) * aRecordSize (wMeta r) <? 2 ^ 64.
Definition info_is (x : res (IpInfo * nat)) (country city asn : bytes) (n : nat) : bool :=
  match x with
  | Ok (i, k) => bytes_eqb (iCountry i) country && bytes_eqb (iCity i) city && bytes_eqb (iAsn i) asn && (k =? n)%nat
  | _ => false
  end.
(** C49, C40, C41: the IPv4 database opens, answers and dumps. *)
Example ex4_open : exists r, aw_open ex4 = Ok r /\ aNodeCount (wMeta r) * aRecordSize (wMeta r) < 2 ^ 64 /\ aIPVersion (wMeta r) = 4 /\
  info_is (aw_query r [x01;x02;x03;x04]) (str "A") [] (str "4134") 1 = true /\
  info_is (aw_query r [x81;x02;x03;x04]) (str "B") (str "c") [] 1 = true /\
  exists tbl, reads r tbl.
Proof.
  destruct (opened_spec ex4 (fun r => size_ok r && (aIPVersion (wMeta r) =? 4) &&
    info_is (aw_query r [x01;x02;x03;x04]) (str "A") [] (str "4134") 1 && info_is (aw_query r [x81;x02;x03;x04]) (str "B") (str "c") [] 1)) as (r & O & H).
  { vm_compute. reflexivity. }
  apply andb_prop in H as [H H4]. apply andb_prop in H as [H H3]. apply andb_prop in H as [H1 H2].
  apply N.ltb_lt in H1. apply N.eqb_eq in H2. exists r. repeat (split; [assumption|]). exact (open_reads _ r O H1).
Qed.
Example ex4_dump : exists d, aw_dump 10 ex4 None = Ok d /\
  map (fun row => (cidr row, fvals row)) (dIps d) =
  [(mkNet [x00;x00;x00;x00] [x80;x00;x00;x00], [str "A"; []; []; []; []; []]);
   (mkNet [x80;x00;x00;x00] [x80;x00;x00;x00], [str "B"; []; str "c"; []; []; []])].
Proof.
  assert (H : match aw_dump 10 ex4 None with Ok d => Some (map (fun row => (cidr row, fvals row)) (dIps d)) | _ => None end =
    Some [(mkNet [x00;x00;x00;x00] [x80;x00;x00;x00], [str "A"; []; []; []; []; []]);
          (mkNet [x80;x00;x00;x00] [x80;x00;x00;x00], [str "B"; []; str "c"; []; []; []])]) by (vm_compute; reflexivity).
  destruct (aw_dump 10 ex4 None) as [d| | |]; [|discriminate H..]. exists d. split; [reflexivity|congruence].
Qed.
(** C50: the three kinds of IPv6 databases. *)
Lemma ex6_asked r : aw_open ex6 = Ok r -> forall m, asked (aw_find r) IPv6zero m -> ~ is_v4 (addr m).
Proof.
  intros O m A.
  assert (Z : match aw_open ex6 with Ok r => match aw_find r IPv6zero, aw_find r (x80 :: repeat x00 15) with
    | Ok (n, _), Ok (n', _) => Some (n, n') | _, _ => None end | _ => None end =
    Some (mkNet IPv6zero (CIDRMask 1 128), mkNet (x80 :: repeat x00 15) (CIDRMask 1 128))) by (vm_compute; reflexivity).
  rewrite O in Z. destruct (aw_find r IPv6zero) as [[n0 i0]| | |] eqn:F0; [|discriminate Z..].
  destruct (aw_find r (x80 :: repeat x00 15)) as [[n1 i1]| | |] eqn:F1; [|discriminate Z..].
  assert (n0 = mkNet IPv6zero (CIDRMask 1 128)) by congruence. assert (n1 = mkNet (x80 :: repeat x00 15) (CIDRMask 1 128)) by congruence. clear Z. subst n0 n1.
  assert (N0 : net_is (mkNet IPv6zero (CIDRMask 1 128)) (mkBlock 0 127)) by (constructor; vm_compute; auto; discriminate).
  assert (N1 : net_is (mkNet (x80 :: repeat x00 15) (CIDRMask 1 128)) (mkBlock (2 ^ 127) 127)) by (constructor; vm_compute; auto; discriminate).
  assert (G : m = IPv6zero \/ m = x80 :: repeat x00 15).
  { induction A as [|m n rec b next A IH F Hn Ha Lt Ln En]; [now left|right]. destruct IH as [-> | ->].
    - rewrite F0 in F. assert (n = mkNet IPv6zero (CIDRMask 1 128)) by congruence. subst n. rewrite (net_is_fun _ _ _ Hn N0) in *.
      apply addr_inj; [exact Ln|right; exact Ln|]. rewrite En. vm_compute. reflexivity.
    - exfalso. rewrite F1 in F. assert (n = mkNet (x80 :: repeat x00 15) (CIDRMask 1 128)) by congruence. subst n. rewrite (net_is_fun _ _ _ Hn N1) in *.
      vm_compute in Lt. discriminate. }
  destruct G as [-> | ->]; vm_compute; intros [H1 H2]; [now apply H1|discriminate].
Qed.
Example ex6_open : exists r d, aw_open ex6 = Ok r /\ aNodeCount (wMeta r) * aRecordSize (wMeta r) < 2 ^ 64 /\ aIPVersion (wMeta r) = 6 /\
  (forall m, asked (aw_find r) IPv6zero m -> ~ is_v4 (addr m)) /\ aw_dump 10 ex6 None = Ok d.
Proof.
  destruct (opened_spec ex6 (fun r => size_ok r && (aIPVersion (wMeta r) =? 6))) as (r & O & H); [vm_compute; reflexivity|].
  apply andb_prop in H as [H1 H2]. apply N.ltb_lt in H1. apply N.eqb_eq in H2.
  destruct (ok_spec (aw_dump 10 ex6 None)) as [d D]; [vm_compute; reflexivity|]. exists r, d.
  split; [assumption|]. split; [assumption|]. split; [assumption|]. split; [exact (ex6_asked r O)|exact D].
Qed.
Definition asks (n : nat) (r : awReader) : bool := match after_n r n IPv6zero with Ok x => bytes_eqb x (repeat x00 10 ++ [xff; xff; x00; x00; x00; x00]) | _ => false end.
Lemma asks_spec n r tbl : reads r tbl -> asks n r = true -> exists m, asked (aw_find r) IPv6zero m /\ is_v4 (addr m).
Proof.
  intros R H. unfold asks in H. destruct (after_n r n IPv6zero) as [x| | |] eqn:E; try discriminate.
  apply bytes_eqb_iff in H. subst x. eexists. split; [exact (after_asked r tbl n IPv6zero _ R (or_intror eq_refl) E)|].
  unfold is_v4, v4base. vm_compute. split; [discriminate|reflexivity].
Qed.
Example ex_stop_open : exists r d m, aw_open ex_stop = Ok r /\ aNodeCount (wMeta r) * aRecordSize (wMeta r) < 2 ^ 64 /\ aIPVersion (wMeta r) = 6 /\
  has_v4_nodes r /\ asked (aw_find r) IPv6zero m /\ is_v4 (addr m) /\ aw_dump 200 ex_stop None = Ok d.
Proof.
  destruct (opened_spec ex_stop (fun r => size_ok r && (aIPVersion (wMeta r) =? 6) && (wV4Depth r =? 96)%nat && asks 31 r)) as (r & O & H); [vm_compute; reflexivity|].
  apply andb_prop in H as [H H4]. apply andb_prop in H as [H H3]. apply andb_prop in H as [H1 H2].
  apply N.ltb_lt in H1. apply N.eqb_eq in H2. apply Nat.eqb_eq in H3. destruct (open_reads _ r O H1) as [tbl R].
  destruct (asks_spec 31 r tbl R H4) as (m & A & V4).
  destruct (ok_spec (aw_dump 200 ex_stop None)) as [d D]; [vm_compute; reflexivity|]. exists r, d, m.
  split; [assumption|]. split; [assumption|]. split; [assumption|]. split; [intros _; assumption|].
  split; [exact A|]. split; [exact V4|exact D].
Qed.
Example ex_loop_open : exists r m, aw_open ex_loop = Ok r /\ aNodeCount (wMeta r) * aRecordSize (wMeta r) < 2 ^ 64 /\ aIPVersion (wMeta r) = 6 /\
  (wV4Depth r < 96)%nat /\ asked (aw_find r) IPv6zero m /\ is_v4 (addr m).
Proof.
  destruct (opened_spec ex_loop (fun r => size_ok r && (aIPVersion (wMeta r) =? 6) && (wV4Depth r =? 81)%nat && asks 16 r)) as (r & O & H); [vm_compute; reflexivity|].
  apply andb_prop in H as [H H4]. apply andb_prop in H as [H H3]. apply andb_prop in H as [H1 H2].
  apply N.ltb_lt in H1. apply N.eqb_eq in H2. apply Nat.eqb_eq in H3. destruct (open_reads _ r O H1) as [tbl R].
  destruct (asks_spec 16 r tbl R H4) as (m & A & V4). exists r, m.
  split; [assumption|]. split; [assumption|]. split; [assumption|]. split; [rewrite H3; lia|]. split; [exact A|exact V4].
Qed.
(** C51: the overflow does crash. *)
Example ex_over_crashes : (2000 <= length (ex_over 6))%nat /\ FromBytes (ex_over 6) = Panic.
Proof. split; [|vm_compute; reflexivity]. change (2000 <= length (ex_over 6))%nat. apply Nat.leb_le. vm_compute. reflexivity. Qed.
Example ex4_not_short : (2000 <= length ex4)%nat /\ exists r, FromBytes ex4 = Ok r.
Proof.
  split; [apply Nat.leb_le; vm_compute; reflexivity|]. destruct ex4_open as (r & O & _). exists r.
  unfold aw_open in O. destruct (FromBytes ex4) as [r'| | |]; [|discriminate O..]. cbn [bind] in O.
  destruct (aw_check r'); [|discriminate O..]. exact O.
Qed.
Lemma Next_mono k f r s x : Next k r s = Ok x -> (k <= f)%nat -> Next f r s = Ok x.
Proof.
  revert f s. induction k as [|k IH]; intros f s H L; [discriminate|]. destruct f as [|f]; [lia|]. cbn [Next] in *.
  destruct s as [|n s]; [assumption|]. destruct (descend _ r n s) as [[]| | |]; cbn [bind] in *; try assumption. apply IH; [assumption|lia].
Qed.
Lemma iterate_mono k f r s x : iterate k r s = Ok x -> (k <= f)%nat -> iterate f r s = Ok x.
Proof.
  revert f s x. induction k as [|k IH]; intros f s x H L; [discriminate|]. destruct f as [|f]; [lia|]. cbn [iterate] in *.
  destruct (Next (S k) r s) as [o| | |] eqn:E; cbn [bind] in *; try discriminate. rewrite (Next_mono _ (S f) _ _ _ E L). cbn [bind].
  destruct o as [[[n s']|]|]; try assumption. destruct (iterate k r s') as [[l b]| | |] eqn:E2; cbn [bind] in *; try discriminate.
  rewrite (IH f s' (l, b) E2) by lia. assumption.
Qed.
(** C35, C36: its networks are listed, and 129.2.3.4 has one of them. *)
Example ex4_networks : exists r start outs, aw_open ex4 = Ok r /\ Networks r = Ok start /\
  (forall f, (10 <= f)%nat -> iterate f r start = Ok (outs, true)) /\ map nnBit outs = [1; 1]%nat /\ own_kind r [x81; x02; x03; x04] /\
  exists net w, LookupNetwork r [x81; x02; x03; x04] = Ok (net, Some w).
Proof.
  destruct (opened_spec ex4 (fun r => (aIPVersion (wMeta r) =? 4) &&
    match Networks r with Ok s => match iterate 10 r s with Ok ([a; b], true) => (nnBit a =? 1)%nat && (nnBit b =? 1)%nat | _ => false end | _ => false end &&
    match LookupNetwork r [x81; x02; x03; x04] with Ok (_, Some _) => true | _ => false end)) as (r & O & H).
  { vm_compute. reflexivity. }
  apply andb_prop in H as [H H4]. apply andb_prop in H as [H2 H3]. apply N.eqb_eq in H2.
  destruct (Networks r) as [s| | |] eqn:Nw; [|discriminate H3..].
  destruct (iterate 10 r s) as [[[|a [|b [|c l]]] [|]]| | |] eqn:E; try discriminate H3. apply andb_prop in H3 as [H5 H6].
  apply Nat.eqb_eq in H5, H6.
  exists r, s, [a; b]. split; [assumption|]. split; [exact Nw|]. split; [intros f L; now apply iterate_mono with 10%nat|].
  split; [cbn [map]; now rewrite H5, H6|]. split.
  - unfold own_kind. rewrite H2. unfold is_v4, v4base. vm_compute. split; [discriminate|reflexivity].
  - destruct (LookupNetwork r _) as [[net [w|]]| | |]; try discriminate H4. exists net, w. reflexivity.
Qed.

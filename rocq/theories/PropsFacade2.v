(** C47: the query wrappers, the checks and the server. *)
From Verif Require Import Base NetIP IpNet Spec IpNetProofs SplitProofs IpNetProofs2 Inf Ipdb SpecIpdb Bits TrieProofs WriterProofs ReaderProofs OpenProofs PackProofs PropsIpdb.
From Verif Require Import Export SpecExport Tables Operate SpecOperate OperateProofs OperateProofs2 NetText NetTextProofs Plain SpecText PlainProofs PropsPlain Memip AwDecode AwTree SpecAwTree AwTreeProofs Facade.
Open Scope nat_scope.

(* ------------------------------------------------------------------ *)
(** ** Spellings of an address *)
Lemma to4_same a b : valid_ip a -> valid_ip b -> addr a = addr b -> to4 a = to4 b.
Proof.
  intros Va Vb E. destruct (to4_spec a Va) as [A1 A2]. destruct (to4_spec b Vb) as [B1 B2]. rewrite E in A1.
  destruct (to4 a) as [|x xs] eqn:Ea; destruct (to4 b) as [|y ys] eqn:Eb.
  - reflexivity.
  - exfalso. apply (proj2 A1); [apply B1; discriminate|reflexivity].
  - exfalso. apply (proj2 B1); [apply A1; discriminate|reflexivity].
  - destruct (A2 ltac:(discriminate)) as [L1 E1]. destruct (B2 ltac:(discriminate)) as [L2 E2].
    apply addr_inj; [congruence|left; exact L1|congruence].
Qed.
Lemma to16_same a b : valid_ip a -> valid_ip b -> addr a = addr b -> to16 a = to16 b.
Proof.
  intros Va Vb E. apply addr_inj.
  - rewrite !to16_length by assumption. reflexivity.
  - apply to16_valid; assumption.
  - rewrite !to16_addr by assumption. assumption.
Qed.
Lemma find0_same r a b : valid_ip a -> valid_ip b -> addr a = addr b -> find0 r a = find0 r b.
Proof. intros Va Vb E. unfold find0. rewrite (to4_same a b), (to16_same a b) by assumption. reflexivity. Qed.
Lemma valid_not_nil a : valid_ip a -> is_nil a = false.
Proof. intros [L|L]; destruct a; try discriminate; reflexivity. Qed.
Lemma lookupPointer_same r a b : valid_ip a -> valid_ip b -> addr a = addr b -> lookupPointer r a = lookupPointer r b.
Proof.
  intros Va Vb E. unfold lookupPointer. rewrite (valid_not_nil a), (valid_not_nil b) by assumption. rewrite (to4_same a b) by assumption.
  destruct (to4 b) as [|y ys] eqn:Eb; cbn [is_nil]; [|reflexivity].
  assert (G : forall c, valid_ip c -> to4 c = [] -> length c = 16).
  { intros c [L|L] N; [|assumption]. unfold to4 in N. rewrite L in N. cbn [Nat.eqb] in N. subst c. discriminate. }
  assert (a = b) as -> by (apply addr_inj; [rewrite !G; auto; rewrite (to4_same a b); assumption|assumption|assumption]).
  reflexivity.
Qed.
(** A query depends only on the address, not on whether its four-byte or its sixteen-byte
    form is given. *)
Theorem C47_spelling : forall q a b, valid_ip a -> valid_ip b -> addr a = addr b -> DbQuery q a = DbQuery q b.
Proof.
  intros [r c|r] a b Va Vb E; unfold DbQuery, q_query.
  - unfold Query, QueryInternal. rewrite (find0_same r a b) by assumption. reflexivity.
  - unfold aw_query, aw_find, LookupNetwork. rewrite (lookupPointer_same r a b) by assumption. reflexivity.
Qed.
(** QueryU32 is Query of the IPv4 address with that number. *)
Theorem C47_u32 : forall q u ip, (u < 2 ^ 32)%N -> valid_ip ip -> addr ip = (v4base + u)%N -> QueryU32 q u = DbQuery q ip.
Proof.
  intros q u ip H V E. unfold QueryU32. destruct (Uint32ToIPv4_spec u H) as [L A].
  apply C47_spelling; [right; assumption|assumption|congruence].
Qed.
(** QueryStr of the text of an address is Query of the address; of the four decimal
    numbers QueryU32 of their value. *)
Theorem C47_str : forall q ip, valid_ip ip -> QueryStr q (ip_string ip) = DbQuery q ip.
Proof.
  intros q ip V. unfold QueryStr. rewrite ParseIP_string by assumption.
  apply C47_spelling; [apply to16_valid; assumption|assumption|apply to16_addr; assumption].
Qed.
Theorem C47_dotted : forall q a b c d,
  QueryStr q (dec (b2n a) ++ x2e :: dec (b2n b) ++ x2e :: dec (b2n c) ++ x2e :: dec (b2n d)) =
  QueryU32 q (b2n a * 2 ^ 24 + b2n b * 2 ^ 16 + b2n c * 2 ^ 8 + b2n d)%N.
Proof.
  intros q a b c d. pose proof (ParseIP_dotted [a; b; c; d] eq_refl) as P.
  change (dotted [a; b; c; d]) with (dec (b2n a) ++ x2e :: dec (b2n b) ++ x2e :: dec (b2n c) ++ x2e :: dec (b2n d)) in P.
  unfold QueryStr. rewrite P. symmetry.
  pose proof (b2n_lt a). pose proof (b2n_lt b). pose proof (b2n_lt c). pose proof (b2n_lt d).
  apply C47_u32; [change (2 ^ 24)%N with 16777216%N; change (2 ^ 16)%N with 65536%N; change (2 ^ 8)%N with 256%N; change (2 ^ 32)%N with 4294967296%N; lia|right; reflexivity|].
  rewrite addr_16 by reflexivity. rewrite val_app, val_v4prefix. cbn [length]. unfold v4base.
  change (8 * N.of_nat 4)%N with 32%N. f_equal.
  unfold val. cbn. change (2 ^ 24)%N with 16777216%N. lia.
Qed.

(** Texts without a dot and without a colon are not addresses. *)
Theorem C47_not_an_address : forall q s, no_byte x2e s -> no_byte x3a s ->
  exists e, QueryStr q s = Ok (None, 0, Some e).
Proof.
  intros q s H1 H2. unfold QueryStr. assert (ParseIP s = None) as ->; [|eauto].
  unfold ParseIP. assert (first_special s = None) as ->; [|reflexivity].
  induction s as [|c s IH]; [reflexivity|]. cbn [first_special].
  assert (byte_eqb c x2e = false) as -> by (destruct (byte_eqb_spec c x2e) as [->|]; [exfalso; apply H1; now left|reflexivity]).
  assert (byte_eqb c x3a = false) as -> by (destruct (byte_eqb_spec c x3a) as [->|]; [exfalso; apply H2; now left|reflexivity]).
  cbn [orb]. apply IH; intros I; [apply H1|apply H2]; now right.
Qed.
(** A result has either a record and no error, or an error, no record and mask 0. *)
Lemma DbQuery_results q ip : (exists i m, DbQuery q ip = Ok (Some i, m, None)) \/ (exists e, DbQuery q ip = Ok (None, 0, Some e)) \/
  DbQuery q ip = Panic \/ DbQuery q ip = OutOfFuel.
Proof.
  unfold DbQuery, q_query. destruct q as [r c|r].
  - destruct (Query r c ip) as [[i m]| | |]; cbn [triple bind]; eauto 6.
  - destruct (aw_query r ip) as [[i m]| | |]; cbn [triple bind]; eauto 6.
Qed.
Theorem C47_error : forall q ip info mask err, DbQuery q ip = Ok (info, mask, err) ->
  (err = None <-> info <> None) /\ (err <> None -> info = None /\ mask = 0).
Proof.
  intros q ip info mask err E. destruct (DbQuery_results q ip) as [(i & m & Q)|[(e & Q)|[Q|Q]]]; rewrite Q in E; try discriminate;
    injection E as <- <- <-; split; try split; congruence.
Qed.
Theorem C47_error_str : forall q s info mask err, QueryStr q s = Ok (info, mask, err) ->
  (err = None <-> info <> None) /\ (err <> None -> info = None /\ mask = 0).
Proof.
  intros q s info mask err. unfold QueryStr. destruct (ParseIP s) as [ip|]; [apply C47_error|].
  intros [= <- <- <-]. split; [split; congruence|auto].
Qed.
(** CheckV4 and CheckV6 succeed exactly when both probes are answered with the expected country. *)
Definition answers_country (q : queryDb) (ip country : bytes) : Prop :=
  exists i m, DbQuery q ip = Ok (Some i, m, None) /\ iCountry i = country.
Lemma check1_none q s ip country k : ParseIP s = Some ip ->
  (check1 q s country k = Ok None <-> answers_country q ip country /\ k = Ok None).
Proof.
  intros P. unfold check1, answers_country. rewrite P.
  destruct (DbQuery_results q ip) as [(i & m & Q)|[(e & Q)|[Q|Q]]]; rewrite Q; cbn [bind].
  - destruct (bytes_eqb_spec (iCountry i) country) as [E|N].
    + split; [intros K; split; [eauto|assumption]|tauto].
    + split; [discriminate|]. intros [(i' & m' & E & C) _]. congruence.
  - split; [discriminate|]. intros [(i' & m' & E & C) _]. congruence.
  - split; [discriminate|]. intros [(i' & m' & E & C) _]. congruence.
  - split; [discriminate|]. intros [(i' & m' & E & C) _]. congruence.
Qed.
Theorem C47_check_v4 : forall q, CheckV4 q = Ok None <->
  answers_country q [x08; x08; x08; x08] (str "美国") /\ answers_country q [x77; x1d; x1d; x1d] (str "中国").
Proof.
  intros q. unfold CheckV4.
  rewrite (check1_none q _ (IPv4 x08 x08 x08 x08)) by (vm_compute; reflexivity).
  rewrite (check1_none q _ (IPv4 x77 x1d x1d x1d)) by (vm_compute; reflexivity).
  unfold answers_country.
  rewrite (C47_spelling q (IPv4 x08 x08 x08 x08) [x08; x08; x08; x08]) by (first [left; reflexivity|right; reflexivity|vm_compute; reflexivity]).
  rewrite (C47_spelling q (IPv4 x77 x1d x1d x1d) [x77; x1d; x1d; x1d]) by (first [left; reflexivity|right; reflexivity|vm_compute; reflexivity]).
  tauto.
Qed.
Theorem C47_check_v6 : forall q, CheckV6 q = Ok None <->
  answers_country q [x20; x01; x48; x60; x48; x60; x00; x00; x00; x00; x00; x00; x00; x00; x88; x88] (str "美国") /\
  answers_country q [x26; x06; x47; x00; x47; x00; x00; x00; x00; x00; x00; x00; x00; x00; x11; x11] (str "美国").
Proof.
  intros q. unfold CheckV6.
  rewrite (check1_none q _ [x20; x01; x48; x60; x48; x60; x00; x00; x00; x00; x00; x00; x00; x00; x88; x88]) by (vm_compute; reflexivity).
  rewrite (check1_none q _ [x26; x06; x47; x00; x47; x00; x00; x00; x00; x00; x00; x00; x00; x00; x11; x11]) by (vm_compute; reflexivity).
  tauto.
Qed.
(** The server sends the record of the address in the path, or 404. *)
Theorem C47_server : forall q ip i, valid_ip ip ->
  (serve q (x2f :: ip_string ip) = Ok (Some i) <-> exists m, DbQuery q ip = Ok (Some i, m, None)) /\
  (serve q (x2f :: ip_string ip) = Ok None <-> exists e, DbQuery q ip = Ok (None, 0, Some e)).
Proof.
  intros q ip i V. unfold serve. rewrite C47_str by assumption.
  destruct (DbQuery_results q ip) as [(i' & m & Q)|[(e & Q)|[Q|Q]]]; rewrite Q; cbn [bind]; split; split; try discriminate;
    try (intros [m' E]; discriminate); try (intros [m' E]; congruence); try (intros E; injection E as <-; eauto); eauto.
Qed.

(* ------------------------------------------------------------------ *)
(** ** From the packer to QueryStr *)
Lemma insert_allH_none rows : forall w h, wCont w = None ->
  insert_allH w h rows =
  let* w' := insert_all w (map (fun r => mkRaw (fst r) (view h (snd r))) rows) in Ok (w', h).
Proof.
  induction rows as [|[n s] r IH]; intros w h C; cbn [insert_allH insert_all map fst snd cidr fvals bind]; [reflexivity|].
  unfold converts, insert. destruct (mask_size (nMask n)) as [mask sz].
  destruct (Nodes (wNode w) (nIP n) mask) as [[[[nodes node] bit] ok]| | |]; cbn [bind]; try reflexivity.
  destruct ok; cbn [negb bind].
  - destruct (nget nodes node bit) as [e| | |]; cbn [bind]; try reflexivity.
    destruct (0 <? e)%Z; cbn [bind negb].
    + rewrite C. apply IH. reflexivity.
    + cbn [wCont]. rewrite C. cbn [conv_values bind]. destruct (Fields (wHash _) (wChunk _) (view h s)) as [[hh cc] off].
      destruct (nset nodes node bit (- off)); cbn [bind]; try reflexivity. apply IH. cbn [wCont]. reflexivity.
  - rewrite C. apply IH. reflexivity.
Qed.
Lemma pack_writer_cont now ipd : plain_columns (dFields ipd) -> wCont (pack_writer now ipd) = None.
Proof.
  intros HC. cbn. apply last_continent_none; [reflexivity|]. intros f I. change (covertFields (dFields ipd)) with (map covert1 (dFields ipd)) in I.
  apply in_map_iff in I as [g [<- I]]. apply covert1_lower. apply HC. assumption.
Qed.
Lemma packH_plain marshal now d : plain_columns (hFields d) ->
  packH marshal now d = let* b := Ipdb.pack marshal now (contents d) in Ok (b, d).
Proof.
  intros HC. unfold packH, Ipdb.pack. rewrite insert_allH_none by (apply pack_writer_cont; exact HC).
  change (map (fun r => mkRaw (fst r) (view (hHeap d) (snd r))) (hRows d)) with (dIps (contents d)).
  destruct (insert_all _ _); cbn [bind]; try reflexivity. destruct d; reflexivity.
Qed.
Lemma QueryInternal_direct r c ip : QueryInternal r c ip false = QueryInternal r [] ip true.
Proof.
  unfold QueryInternal. destruct (match find0 r ip with Ok a => Ok a | Err _ => Ok (0%Z, [], 0) | Panic => Panic | OutOfFuel => OutOfFuel end) as [[[node body] mask]| | |]; reflexivity.
Qed.
Lemma BuildCache_ok r ips : (forall ip, In (Some ip) ips -> (exists x, Query r [] ip = Ok x) \/ exists e, Query r [] ip = Err e) ->
  forall c, exists c', BuildCache r c ips = Ok c'.
Proof.
  induction ips as [|[ip|] ips IH]; intros H c; cbn [BuildCache].
  - eauto.
  - pose proof (H ip (or_introl eq_refl)) as Q. rewrite QueryInternal_direct. unfold Query in Q.
    destruct (QueryInternal r [] ip true) as [[[node info] m]| | |]; cbn [bind] in Q.
    + apply IH. intros. apply H. now right.
    + apply IH. intros. apply H. now right.
    + destruct Q as [[x Q]|[e Q]]; discriminate.
    + destruct Q as [[x Q]|[e Q]]; discriminate.
  - apply IH. intros. apply H. now right.
Qed.
Lemma answer_fine fields t m a : (exists x, answer fields t m a = Ok x) \/ exists e, answer fields t m a = Err e.
Proof.
  unfold answer, no_record. destruct (holds_family t a); [destruct (lookup m a) as [[b row]|]|];
  repeat match goal with |- context [if ?b then _ else _] => destruct b end; eauto.
Qed.
(** C47: pack a dataset, open the bytes with any list of addresses to cache, ask with the
    text of an address: the row of the address and its prefix length come back. *)
Theorem C47_packed : forall E d bs ipList,
  Forall2 row_ok (dIps (contents d)) bs -> disjoint bs -> plain_columns (hFields d) -> hFields d <> [] ->
  json_ok (jMeta E) (jUnMeta E) (eNow E) (contents d) ->
  exists data, PackBytes (converterFormats E) (str ".ipdb") d = Ok (data, d) /\
    ((Z.of_nat (length data) < 2 ^ 32)%Z ->
     exists q, NewDbFromBytes (serverFormats E) ipList (str ".ipdb") data = Ok q /\
       (forall i row b ip, nth_error (dIps (contents d)) i = Some row -> nth_error bs i = Some b ->
          length (hFields d) <= length (fvals row) ->
          valid_ip ip -> in_block b (addr ip) -> holds_family (vIpType (hVersion d)) (addr ip) = true ->
          QueryStr q (ip_string ip) = Ok (Some (row_info (hFields d) (fvals row)), prefix_len (addr ip) b, None)) /\
       (forall ip, valid_ip ip -> (forall b, In b bs -> ~ in_block b (addr ip)) -> 2 <= length (hFields d) ->
          QueryStr q (ip_string ip) = Ok (None, 0, Some ErrDatabaseError))).
Proof.
  intros E d bs ipList HR HD HC HF HJ.
  destruct (C11_pack_query_disjoint _ _ _ _ _ HR HD HC HF HJ) as [data [P H]].
  destruct (C12_pack_query _ _ _ _ _ HR HC HF HJ) as [data2 [P2 H2]].
  destruct (C13_no_record _ _ _ _ _ HR HC HF HJ) as [data3 [P3 H3]].
  rewrite P in P2, P3. injection P2 as <-. injection P3 as <-.
  exists data. split.
  { unfold PackBytes. change (GetPackFormat (converterFormats E) (str ".ipdb")) with (Some (packH (jMeta E) (eNow E))).
    cbv beta iota. rewrite packH_plain by assumption. rewrite P. reflexivity. }
  intros Hs. destruct (H Hs) as [q [O Q]]. destruct (H2 Hs) as [q2 [O2 Q2]]. destruct (H3 Hs) as [q3 [O3 Q3]].
  rewrite O in O2, O3. injection O2 as <-. injection O3 as <-.
  assert (OR : newReaderFromBytes (jUnMeta E) data = Ok q).
  { unfold newQuerier in O. destruct (newReaderFromBytes (jUnMeta E) data); cbn [bind] in O; congruence. }
  destruct (BuildCache_ok q (map cache_ip ipList)) with (c := @nil (Z * IpInfo)) as [c Bc].
  { intros ip _. assert (D : valid_ip ip \/ ~ valid_ip ip) by (unfold valid_ip; lia).
    destruct D as [V|NV]; [rewrite Q2 by assumption; apply answer_fine|].
    destruct (Q3 ip (or_introl NV)) as [A B]. cbn [dFields contents] in A, B.
    destruct (Nat.eq_dec (length (hFields d)) 1) as [L|L]; [left; eexists; apply B; assumption|].
    right. eexists. apply A. destruct (hFields d) as [|? [|? ?]]; [contradiction|cbn in L; lia|cbn; lia]. }
  assert (T : forall ip, DbQuery (QIpdb q c) ip = triple (Query q [] ip)).
  { intros ip. unfold DbQuery, q_query.
    rewrite (C15_build_cache_transparent (jUnMeta E) data q [map cache_ip ipList] c OR) by (cbn [build_caches]; rewrite Bc; reflexivity).
    destruct (Query q [] ip) as [[i m]| | |]; reflexivity. }
  exists (QIpdb q c). split.
  { unfold NewDbFromBytes.
    change (GetQueryFormat (serverFormats E) (str ".ipdb")) with (Some (fun data => let* ' (r, c) := newQuerier (jUnMeta E) data in Ok (QIpdb r c))).
    cbv beta iota. rewrite O. cbn [bind q_build]. rewrite Bc. reflexivity. }
  split.
  - intros i row b ip Hi Hb Hl V B F. rewrite C47_str, T by assumption.
    rewrite (Q i row b ip) by assumption. reflexivity.
  - intros ip V N L. rewrite C47_str, T by assumption.
    destruct (Q3 ip) as [A _]; [right; right; auto|]. cbn [dFields contents] in A. rewrite A by assumption. reflexivity.
Qed.
Print Assumptions C47_packed.

(** A case: the dataset of C11 with its slices. *)
Definition case_data : HData := fresh (fun _ => 2) case_ipd.
Example C47_case : contents case_data = case_ipd /\ legal case_data /\
  Forall2 row_ok (dIps (contents case_data)) case_blocks /\ disjoint case_blocks /\ plain_columns (hFields case_data) /\ hFields case_data <> [].
Proof.
  split; [vm_compute; reflexivity|]. split; [repeat constructor; cbn; lia|].
  destruct C11_case as (A & B & C & D & _). auto.
Qed.
Example C47_case_text : ip_string [x01; x00; x00; x07] = str "1.0.0.7" /\
  ip_string ([x20; x01] ++ repeat x00 13 ++ [x09]) = str "2001::9" /\ valid_ip [x01; x00; x00; x07] /\
  addr [x01; x00; x00; x07] = (v4base + 0x01000007)%N.
Proof. split; [reflexivity|]. split; [vm_compute; reflexivity|]. split; [left; reflexivity|reflexivity]. Qed.

(** Property theorems C55: the HTTP server.  Vocabulary: Spec.v, SpecIpdb.v, SpecForeign.v
    (UTF-8). *)
From Verif Require Import Base NetIP NetText NetTextProofs Spec Inf Ipdb SpecIpdb Operate SpecOperate Server SpecForeign JsonProofs PropsIpdb PropsJson PropsFacade PropsFacade2.
Open Scope Z_scope.

(** The eight members of an answer. *)
Definition answer_members (i : IpInfo) : list (bytes * bytes) :=
  [ (str "country", iCountry i); (str "district", iDistrict i); (str "province", iProvince i); (str "city", iCity i);
    (str "asn", iAsn i); (str "isp", iIsp i); (str "continent", iContinent i); (str "line", iLine i) ].
(** A JSON text that is an object with exactly the non-empty ones of these members. *)
Definition says (body : bytes) (i : IpInfo) : Prop :=
  parse body = Some (JObj (map (fun kv => (fst kv, JStr (snd kv)))
                            (filter (fun kv => negb (match snd kv with [] => true | _ => false end)) (answer_members i)))).
Definition utf8_info (i : IpInfo) : Prop := Forall (fun kv => utf8 (snd kv)) (answer_members i).

Lemma marshal_info_says i : utf8_info i -> says (marshal_info i) i.
Proof.
  intros H. unfold says, marshal_info.
  assert (info_json i = JObj (map (fun kv => (fst kv, JStr (snd kv)))
     (filter (fun kv => negb (match snd kv with [] => true | _ => false end)) (answer_members i)))) as E.
  { unfold info_json, answer_members, opt_member, is_nil. destruct i as [a b c d e f g h].
    cbn [iCountry iDistrict iProvince iCity iAsn iIsp iContinent iLine filter snd].
    destruct a, b, c, d, e, f, g, h; reflexivity. }
  rewrite E. apply parse_enc.
  2:{ etransitivity; [apply nested_members|]; [|lia]. apply Forall_map, Forall_forall. intros ? _. cbn. lia. }
  apply good_obj. apply Forall_map. apply Forall_forall. intros [k v] I. apply filter_In in I as [I _].
  cbn [fst snd good]. split.
  - destruct I as [I|[I|[I|[I|[I|[I|[I|[I|[]]]]]]]]]; injection I as <- _; ascii.
  - unfold utf8_info in H. rewrite Forall_forall in H. exact (H _ I).
Qed.

(** Texts of addresses never are the word version. *)
Lemma ip_path ip : valid_ip ip -> bytes_eqb (x2f :: ip_string ip) (str "/version") = false.
Proof.
  intros V. destruct (bytes_eqb_spec (x2f :: ip_string ip) (str "/version")) as [E|]; [|reflexivity]. exfalso.
  injection E as E. pose proof (ParseIP_string ip V) as P. rewrite E in P. vm_compute in P. discriminate P.
Qed.

(** C55: the server answers the path of an address with the record of a query as JSON,
    404 and no body when the query fails, and nothing else. *)
Theorem C55_address : forall nl ne q ip, valid_ip ip ->
  (forall i m, DbQuery q ip = Ok (Some i, m, None) ->
     http_get nl ne q (x2f :: ip_string ip) = Ok (200, marshal_info i) /\ (utf8_info i -> says (marshal_info i) i)) /\
  (forall e, DbQuery q ip = Ok (None, 0%nat, Some e) -> http_get nl ne q (x2f :: ip_string ip) = Ok (404, [])) /\
  (forall status body, http_get nl ne q (x2f :: ip_string ip) = Ok (status, body) ->
     (exists i m, DbQuery q ip = Ok (Some i, m, None) /\ status = 200 /\ body = marshal_info i) \/
     (exists e, DbQuery q ip = Ok (None, 0%nat, Some e) /\ status = 404 /\ body = [])).
Proof.
  intros nl ne q ip V. unfold http_get. rewrite ip_path by assumption. rewrite C47_str by assumption.
  split; [|split].
  - intros i m ->. cbn [bind]. split; [reflexivity|apply marshal_info_says].
  - intros e ->. reflexivity.
  - intros st body E. destruct (DbQuery_results q ip) as [(i & m & Q)|[(e & Q)|[Q|Q]]]; rewrite Q in E; cbn [bind] in E; try discriminate E.
    + left. exists i, m. split; [assumption|]. split; congruence.
    + right. exists e. split; [assumption|]. split; congruence.
Qed.
Print Assumptions C55_address.

(** C55: a path that is not the text of an address is answered 404. *)
Theorem C55_not_an_address : forall nl ne q s, ParseIP s = None -> s <> str "version" ->
  http_get nl ne q (x2f :: s) = Ok (404, []).
Proof.
  intros nl ne q s H N. unfold http_get, QueryStr. rewrite H.
  destruct (bytes_eqb_spec (x2f :: s) (str "/version")) as [E|_]; [|reflexivity]. exfalso. apply N. injection E as E. exact E.
Qed.
Print Assumptions C55_not_an_address.

(** C55: /version is the version of the opened database, readable as JSON. *)
Theorem C55_version : forall nl ne q, version_fits (q_version q) ->
  exists body, http_get nl ne q (str "/version") = Ok (200, body) /\ unmarshal_version body = Some (Some (q_version q)).
Proof.
  intros nl ne q H. eexists. split; [reflexivity|]. apply C54_version_round_trip. assumption.
Qed.
Print Assumptions C55_version.

Lemma utf8_column names fields row : Forall utf8 row -> utf8 (column names fields row).
Proof.
  intros H. unfold column. set (l := map snd _). assert (Forall utf8 l) as F.
  { apply Forall_map, Forall_forall. intros [f v] I. apply filter_In in I as [I _]. apply in_combine_r in I. rewrite Forall_forall in H. auto. }
  clearbody l. destruct l as [|x l]; [exists []; split; [constructor|reflexivity]|].
  assert (last (x :: l) [] <> last (x :: l) [] \/ In (last (x :: l) []) (x :: l)) as [?|I]; [|congruence|].
  - right. destruct (exists_last (l := x :: l) ltac:(discriminate)) as [l' [y E]]. rewrite E, last_last. apply in_or_app. right. left. reflexivity.
  - rewrite Forall_forall in F. apply F. exact I.
Qed.
Fixpoint runes (k : nat) (s : bytes) : list N :=
  match k, s with S k, _ :: _ => let '(c, n) := DecodeRune s in c :: runes k (skipn n s) | _, _ => [] end.
Lemma utf8_show fields row : Forall utf8 row -> Forall utf8 (show_continent fields row).
Proof.
  intros H. revert fields. induction H as [|v row Hv Hr IH]; intros [|f fs]; cbn [show_continent]; try (constructor; assumption); try constructor.
  destruct (in_array f _); constructor; auto. unfold continent_name.
  destruct (assoc v continents) as [n|] eqn:E; [|assumption].
  rewrite PropsForeign.assoc_eqb_sym in E.
  repeat (match type of E with (if ?b then Some ?s else _) = _ => destruct b;
    [assert (n = s) as -> by (injection E as E; symmetry; exact E); clear;
     let e := eval vm_compute in (runes 20 s) in exists e;
     split; [repeat (constructor; [left; reflexivity|]); constructor|vm_compute; reflexivity]|] end).
  discriminate E.
Qed.
Lemma utf8_row_info fields row : Forall utf8 row -> utf8_info (row_info fields row).
Proof.
  intros H. pose proof (utf8_show fields row H) as S. unfold utf8_info, answer_members, row_info.
  cbn [iCountry iDistrict iProvince iCity iAsn iIsp iContinent iLine].
  repeat (apply Forall_cons; [cbn [snd]; apply utf8_column; assumption|]). constructor.
Qed.

(** C55: from the packer to the HTTP answer: any dataset of disjoint rows, packed,
    opened by the server (whatever is cached) and asked over HTTP. *)
Theorem C55_packed : forall E nl ne d bs ipList,
  Forall2 row_ok (dIps (contents d)) bs -> disjoint bs -> plain_columns (hFields d) -> (2 <= length (hFields d))%nat ->
  json_ok (jMeta E) (jUnMeta E) (eNow E) (contents d) ->
  exists data, PackBytes (converterFormats E) (str ".ipdb") d = Ok (data, d) /\
    ((Z.of_nat (length data) < 2 ^ 32)%Z ->
     exists q, NewDbFromBytes (serverFormats E) ipList (str ".ipdb") data = Ok q /\
       (forall i row b ip, nth_error (dIps (contents d)) i = Some row -> nth_error bs i = Some b ->
          (length (hFields d) <= length (fvals row))%nat -> Forall utf8 (fvals row) ->
          valid_ip ip -> in_block b (addr ip) -> holds_family (vIpType (hVersion d)) (addr ip) = true ->
          exists body, http_get nl ne q (x2f :: ip_string ip) = Ok (200, body) /\
            says body (row_info (hFields d) (fvals row))) /\
       (forall ip, valid_ip ip -> (forall b, In b bs -> ~ in_block b (addr ip)) ->
          http_get nl ne q (x2f :: ip_string ip) = Ok (404, []))).
Proof.
  intros E nl ne d bs ipList HR HD HC HF HJ.
  assert (hFields d <> []) as HF' by (intros X; rewrite X in HF; cbn in HF; lia).
  destruct (C47_packed E d bs ipList HR HD HC HF' HJ) as [data [P Q]]. exists data. split; [assumption|].
  intros Hs. destruct (Q Hs) as [q [O [A B]]]. exists q. split; [assumption|]. split.
  - intros i row b ip Hi Hb Hl Hu V Hin Hf. specialize (A i row b ip Hi Hb Hl V Hin Hf).
    rewrite C47_str in A by assumption. destruct (C55_address nl ne q ip V) as [X _]. destruct (X _ _ A) as [Y Z].
    eexists. split; [exact Y|]. apply Z. apply utf8_row_info. assumption.
  - intros ip V N. specialize (B ip V N HF). rewrite C47_str in B by assumption.
    destruct (C55_address nl ne q ip V) as [_ [X _]]. apply (X _ B).
Qed.
Print Assumptions C55_packed.

(** A case: the premises of C55_packed are those of C47_case and C54_json_ok; the body. *)
Example C55_body : marshal_info (row_info (dFields case_ipd) [str "CN"; str "AS"; str "4134"]) =
  str "{""country"":""CN"",""asn"":""4134"",""continent"":""亚洲""}".
Proof. vm_compute. reflexivity. Qed.
Definition case_env : env := mkEnv (marshal_meta false true) unmarshal_meta (marshal_version true true) unmarshal_version
  1700000000 (str "2023-11-14 22:13:20") (str "20231114") 0 (fun n => n).
Example C55_case : Forall2 row_ok (dIps (contents case_data)) case_blocks /\ disjoint case_blocks /\ plain_columns (hFields case_data) /\
  (2 <= length (hFields case_data))%nat /\ json_ok (jMeta case_env) (jUnMeta case_env) (eNow case_env) (contents case_data) /\
  Forall (fun r => Forall utf8 (fvals r)) (dIps (contents case_data)).
Proof.
  destruct C47_case as (E & _ & A & B & C & _). split; [assumption|]. split; [assumption|]. split; [assumption|]. split; [vm_compute; lia|].
  rewrite E. split; [apply C54_json_ok; [apply utf8_case|unfold int64; cbn; lia]|]. apply utf8_case.
Qed.

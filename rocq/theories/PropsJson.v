(** Property theorems C54: encoding/json on the metadata of a database and on the
    version of a dataset, and the ipdb properties without assumption on JSON.
    Vocabulary: Spec.v, SpecIpdb.v, SpecForeign.v (UTF-8). *)
From Verif Require Import Base NetIP NetText Spec Inf Ipdb SpecIpdb Json SpecForeign JsonProofs.
From Verif Require Import PackProofs PropsIpdb PropsForeign PropsForeign2 Foreign.
From Verif Require Import Plain SpecText PropsPlain.
Open Scope Z_scope.

Definition int64 (z : Z) : Prop := - 2 ^ 63 <= z < 2 ^ 63.

Lemma good_jint z : good (jint z).
Proof. apply number_dec_int. Qed.
Lemma good_jstrs n l : Forall utf8 l -> good (jstrs n l).
Proof.
  intros H. destruct l as [|x l]; [destruct n; exact I|]. unfold jstrs. apply good_arr.
  apply Forall_map. eapply Forall_impl; [|exact H]. intros a Ha. exact Ha.
Qed.
Lemma get_strs_jstrs n l : get_strs (jstrs n l) = Some l.
Proof.
  destruct l as [|x l]; [destruct n; reflexivity|]. unfold jstrs, get_strs. generalize (x :: l). clear.
  induction l as [|x l IH]; [reflexivity|]. cbn [map get_all get_str]. rewrite IH. reflexivity.
Qed.
Lemma get_int_jint old z : int64 z -> get_int old (jint z) = Some z.
Proof. intros H. cbn [jint get_int]. apply parse_int_dec. exact H. Qed.
Lemma get_uint_jint big old n : (n < big)%N -> get_uint big old (jint (Z.of_N n)) = Some n.
Proof.
  intros H. cbn [jint get_uint]. unfold dec_int. replace (Z.of_N n <? 0) with false by lia. rewrite N2Z.id. apply parse_uint_dec. assumption.
Qed.

(** Metadata whose numbers fit the Go types and whose texts are UTF-8. *)
Record meta_fits (m : MetaData) : Prop := {
  mf_build : int64 (mBuild m); mf_ver : (mIPVersion m < 2 ^ 16)%N;
  mf_lang : exists k v, mLanguages m = [(k, v)] /\ utf8 k /\ int64 v;
  mf_nodes : int64 (mNodeCount m); mf_size : int64 (mTotalSize m);
  mf_fields : Forall utf8 (mFields m); mf_version : utf8 (mVersion m); mf_extra : Forall utf8 (mExtra m) }.
Record version_fits (v : VersionInfo) : Prop := {
  vf_type : int64 (vIpType v); vf_count : (vCount v < 2 ^ 32)%N; vf_build : int64 (vBuild v);
  vf_version : utf8 (vVersion v); vf_lang : Forall utf8 (vLanguages v); vf_extra : Forall utf8 (vExtra v) }.

Lemma utf8_ascii (s : bytes) : Forall (fun b => (b2n b < 0x80)%N) s -> utf8 s.
Proof.
  induction 1 as [|b s H _ [cs [F ->]]]; [exists []; auto|]. exists (b2n b :: cs). split.
  - constructor; [left; lia|assumption].
  - cbn [flat_map]. unfold utf8_enc at 2. replace (b2n b <? 0x80)%N with true by lia. cbn [app]. f_equal. symmetry. apply n2b_b2n.
Qed.
Ltac ascii := apply utf8_ascii; vm_compute; repeat constructor.

Lemma strs_nested b l : (nested (jstrs b l) <= 1)%nat.
Proof.
  unfold jstrs. destruct l as [|x l]; [destruct b; cbn; lia|]. rewrite nested_arr. enough (anested (map JStr (x :: l)) = 0)%nat by lia.
  induction (x :: l) as [|y r IH]; [reflexivity|]. exact IH.
Qed.
Lemma nested_members l : Forall (fun kv => (nested (snd kv) <= 9)%nat) l -> (nested (JObj l) <= 10)%nat.
Proof. intros F. rewrite nested_obj. enough (onested l <= 9)%nat by lia. induction F as [|x l H _ IH]; [cbn; lia|]. unfold onested in *. cbn [fold_right]. lia. Qed.
Ltac shallow := match goal with |- (nested (jstrs ?b ?l) <= _)%nat => pose proof (strs_nested b l); lia | |- (nested (JObj _) <= _)%nat => idtac | |- _ => cbn; lia end.
Lemma meta_nested nf ne m : (nested (meta_json nf ne m) <= 100)%nat.
Proof.
  unfold meta_json. etransitivity; [apply nested_members|lia].
  repeat (apply Forall_cons; [cbn [snd]; try shallow|]); [|constructor].
  rewrite nested_obj. enough (onested (map (fun x => (fst x, jint (snd x))) (mLanguages m)) = 0)%nat by lia. induction (mLanguages m) as [|y r IH]; [reflexivity|]. exact IH.
Qed.
Lemma version_nested nl ne v : (nested (version_json nl ne v) <= 100)%nat.
Proof. unfold version_json. etransitivity; [apply nested_members|lia]. repeat (apply Forall_cons; [cbn [snd]; try shallow|]). constructor. Qed.
(** C54: the metadata of a database survives Marshal and Unmarshal, whichever of
    the empty slices are nil. *)
Theorem C54_metadata_round_trip : forall nf ne m, meta_fits m -> unmarshal_meta (marshal_meta nf ne m) = Some m.
Proof.
  intros nf ne [bu iv la nc ts fi ve ex] [H1 H2 [k [v [H3 [H4 H5]]]] H6 H7 H8 H9 H10].
  cbn [mBuild mIPVersion mLanguages mNodeCount mTotalSize mFields mVersion mExtra] in *. subst la.
  unfold unmarshal_meta, marshal_meta. rewrite parse_enc.
  3:{ apply meta_nested. }
  2:{ apply good_obj. repeat (apply Forall_cons; [split; [cbn [fst]; ascii|cbn [snd]; first [apply good_jint|apply good_jstrs; assumption|assumption|idtac]]|]); [|constructor].
      apply good_obj. constructor; [|constructor]. split; [assumption|apply good_jint]. }
  cbn [meta_json mBuild mIPVersion mLanguages mNodeCount mTotalSize mFields mVersion mExtra map fst snd set_all].
  unfold set_meta. 
  repeat match goal with |- context [key_is ?a ?b] => let e := eval vm_compute in (key_is a b) in change (key_is a b) with e; cbv iota end.
  rewrite get_int_jint by assumption. cbn [option_map].
  rewrite get_uint_jint by assumption. cbn [option_map].
  cbn [get_map get_all fst snd]. rewrite (get_int_jint 0 v) by assumption. cbn [rev app option_map].
  rewrite get_int_jint by assumption. cbn [option_map].
  rewrite get_int_jint by assumption. cbn [option_map].
  rewrite get_strs_jstrs. cbn [option_map get_str]. rewrite get_strs_jstrs. reflexivity.
Qed.
Print Assumptions C54_metadata_round_trip.

(** C54: so does the version of a dataset. *)
Theorem C54_version_round_trip : forall nl ne v, version_fits v -> unmarshal_version (marshal_version nl ne v) = Some (Some v).
Proof.
  intros nl ne [ty co bu ve la ex] [H1 H2 H3 H4 H5 H6]. cbn [vIpType vCount vBuild vVersion vLanguages vExtra] in *.
  unfold unmarshal_version, marshal_version. rewrite parse_enc.
  3:{ apply version_nested. }
  2:{ apply good_obj. repeat (apply Forall_cons; [split; [cbn [fst]; ascii|cbn [snd]; first [apply good_jint|apply good_jstrs; assumption|assumption|idtac]]|]). constructor. }
  cbn [version_json vIpType vCount vBuild vVersion vLanguages vExtra set_all].
  unfold set_version.
  repeat match goal with |- context [key_is ?a ?b] => let e := eval vm_compute in (key_is a b) in change (key_is a b) with e; cbv iota end.
  rewrite get_int_jint by assumption. cbn [option_map].
  rewrite get_uint_jint by assumption. cbn [option_map].
  rewrite get_int_jint by assumption. cbn [option_map get_str].
  rewrite get_strs_jstrs. cbn [option_map]. rewrite get_strs_jstrs. reflexivity.
Qed.
Print Assumptions C54_version_round_trip.

(* ---------- the JSON assumptions of the other properties ---------- *)
Lemma utf8_covert f : utf8 f -> utf8 (covert1 f).
Proof.
  intros H. unfold covert1, CommonFieldsMap. cbn [assoc].
  repeat match goal with |- context [bytes_eqb ?n f] => destruct (bytes_eqb n f); [ascii|] end. assumption.
Qed.
(** Datasets whose column names and version texts are UTF-8. *)
Record utf8_names (ipd : IpData) : Prop := {
  un_fields : Forall utf8 (dFields ipd); un_version : utf8 (vVersion (dVersion ipd)); un_extra : Forall utf8 (vExtra (dVersion ipd)) }.
Lemma meta_of_fits now ipd nodes size : utf8_names ipd -> int64 now -> 0 <= nodes < 2 ^ 63 -> 0 <= size < 2 ^ 63 ->
  meta_fits (meta_of now ipd nodes size).
Proof.
  intros [U1 U2 U3] Hn H1 H2. constructor; cbn [meta_of mBuild mIPVersion mLanguages mNodeCount mTotalSize mFields mVersion mExtra]; try assumption.
  - unfold ipVersion. destruct (_ =? 1); [reflexivity|]. destruct (_ =? 2); reflexivity.
  - exists (str "CN"), 0. split; [reflexivity|]. split; [ascii|unfold int64; lia].
  - unfold int64. lia.
  - unfold int64. lia.
  - unfold covertFields. apply Forall_map. eapply Forall_impl; [|exact U1]. exact utf8_covert.
Qed.
Theorem C54_json_ok : forall nf ne now ipd, utf8_names ipd -> int64 now ->
  json_ok (marshal_meta nf ne) unmarshal_meta now ipd /\ json_ok32 (marshal_meta nf ne) unmarshal_meta now ipd.
Proof.
  intros nf ne now ipd U Hn. split; intros nodes size H1 H2; apply C54_metadata_round_trip, meta_of_fits; (assumption || lia).
Qed.
Print Assumptions C54_json_ok.

(** C54: C12 with encoding/json in place: packing and opening refine to the
    prefix-free map of the rows. *)
Theorem C54_pack_query : forall nf ne now ipd bs,
  Forall2 row_ok (dIps ipd) bs -> plain_columns (dFields ipd) -> dFields ipd <> [] -> utf8_names ipd -> int64 now ->
  exists data, Ipdb.pack (marshal_meta nf ne) now ipd = Ok data /\
    (Z.of_nat (length data) < 2 ^ 32 ->
     exists q, newQuerier unmarshal_meta data = Ok (q, []) /\
       forall ip, valid_ip ip -> Query q [] ip =
         answer (dFields ipd) (vIpType (dVersion ipd)) (store_all (combine bs (map fvals (dIps ipd)))) (addr ip)).
Proof.
  intros nf ne now ipd bs HR HC HF HU Hn. apply C12_pack_query; try assumption. apply C54_json_ok; assumption.
Qed.
Print Assumptions C54_pack_query.

(** C54, finding: a column name that is not UTF-8 is changed on the way. *)
Example C54_not_utf8_refuted : exists m, mFields m = [[xff]] /\
  exists m', unmarshal_meta (marshal_meta true true m) = Some m' /\ mFields m' = [[xef; xbf; xbd]].
Proof.
  exists (mkMeta 0 3 [(str "CN", 0)] 0 0 [[xff]] [] []). split; [reflexivity|]. eexists. split; [vm_compute; reflexivity|reflexivity].
Qed.

(* ---------- cases ---------- *)
Lemma utf8_case : utf8_names case_ipd /\ Forall (fun r => Forall utf8 (fvals r)) (dIps case_ipd).
Proof.
  split; [constructor; cbn [case_ipd dFields dVersion vVersion vExtra]; [repeat (constructor; [ascii|]); constructor|ascii|constructor]|].
  constructor; [|constructor; [|constructor]]; cbn [fvals]; repeat (constructor; [ascii|]); constructor.
Qed.
Example C54_case : meta_fits (meta_of 1700000000 case_ipd 5 100) /\
  marshal_meta false true (meta_of 1700000000 case_ipd 5 100) =
  str "{""build"":1700000000,""ip_version"":3,""languages"":{""CN"":0},""node_count"":5,""total_size"":100,""fields"":[""country_name"",""continent_code"",""asn""],""version"":""v1"",""extra"":null}".
Proof.
  split; [apply meta_of_fits; [apply utf8_case|unfold int64|idtac..]; lia|vm_compute; reflexivity].
Qed.
Example C54_escapes : exists m, mFields m = [str "a""b\c<" ++ [x0a; x01; xe2; x80; xa8]] /\ meta_fits m /\
  marshal_meta true true m = str "{""build"":-1,""ip_version"":1,""languages"":{""CN"":0},""node_count"":0,""total_size"":0,""fields"":[""a\""b\\c\u003c\n\u0001\u2028""],""version"":"""",""extra"":null}".
Proof.
  exists (mkMeta (-1) 1 [(str "CN", 0)] 0 0 [str "a""b\c<" ++ [x0a; x01; xe2; x80; xa8]] [] []).
  split; [reflexivity|]. split; [|vm_compute; reflexivity].
  constructor; cbn [mBuild mIPVersion mLanguages mNodeCount mTotalSize mFields mVersion mExtra].
  - unfold int64; lia.
  - reflexivity.
  - exists (str "CN"), 0. split; [reflexivity|]. split; [ascii|unfold int64; lia].
  - unfold int64; lia.
  - unfold int64; lia.
  - constructor; [|constructor].
    exists [0x61; 0x22; 0x62; 0x5c; 0x63; 0x3c; 0x0a; 0x01; 0x2028]%N. split; [|vm_compute; reflexivity]. repeat constructor; left; reflexivity.
  - ascii.
  - constructor.
Qed.

(* ---------- the version line of a scan file ---------- *)
Fixpoint pgood (j : json) : Prop :=
  match j with
  | JNull | JBool _ => True
  | JNum t => printable t
  | JStr s => utf8 s
  | JArr l => (fix all l := match l with [] => True | x :: r => pgood x /\ all r end) l
  | JObj l => (fix all l := match l with [] => True | x :: r => (utf8 (fst x) /\ pgood (snd x)) /\ all r end) l
  end.
Lemma printable_join (l : list bytes) : Forall printable l -> printable (join x2c l).
Proof.
  induction 1 as [|x l H F IH]; [constructor|]. destruct l as [|y l]; [assumption|].
  change (join x2c (x :: y :: l)) with (x ++ x2c :: join x2c (y :: l)). apply printable_app; [assumption|].
  constructor; [vm_compute; discriminate|assumption].
Qed.
Lemma printable_enc j : pgood j -> printable (enc j).
Proof.
  induction j as [|b|t|s|l IH|l IH] using json_rec'; intros G; cbn [enc].
  - repeat constructor; vm_compute; discriminate.
  - destruct b; repeat constructor; vm_compute; discriminate.
  - exact G.
  - apply printable_enc_str. exact G.
  - constructor; [vm_compute; discriminate|]. apply printable_app; [|repeat constructor; vm_compute; discriminate].
    apply printable_join. apply Forall_map. induction l as [|x l IHl]; [constructor|]. inversion IH as [|? ? Hx Hl]; subst. destruct G as [G1 G2].
    constructor; [exact (Hx G1)|exact (IHl Hl G2)].
  - constructor; [vm_compute; discriminate|]. apply printable_app; [|repeat constructor; vm_compute; discriminate].
    apply printable_join. apply Forall_map. induction l as [|x l IHl]; [constructor|]. inversion IH as [|? ? Hx Hl]; subst. destruct G as [[G0 G1] G2].
    constructor; [|exact (IHl Hl G2)]. apply printable_app; [apply printable_enc_str; assumption|]. constructor; [vm_compute; discriminate|exact (Hx G1)].
Qed.
Lemma pgood_jstrs n l : Forall utf8 l -> pgood (jstrs n l).
Proof.
  intros H. destruct l as [|x l]; [destruct n; exact I|]. unfold jstrs. revert H. generalize (x :: l). clear.
  induction 1; cbn; auto.
Qed.
(** C54: the version is written as one line. *)
Theorem C54_version_line : forall nl ne v, version_fits v ->
  Forall (fun b => (0x20 <= b2n b)%N) (marshal_version nl ne v) /\ one_line (marshal_version nl ne v).
Proof.
  intros nl ne v [H1 H2 H3 H4 H5 H6].
  assert (printable (marshal_version nl ne v)) as Hp.
  { apply printable_enc. cbn [version_json pgood fst snd jint].
    repeat split; first [apply printable_dec_int|apply pgood_jstrs; assumption|assumption|ascii]. }
  split; [exact Hp|]. split; intros I; unfold printable in Hp; rewrite Forall_forall in Hp; apply Hp in I; vm_compute in I; apply I; reflexivity.
Qed.
Print Assumptions C54_version_line.

(** C54: the JSON premises of C31 hold for every dataset whose version fits the Go
    types, has UTF-8 texts and a short line. *)
Theorem C54_scannable : forall nl ne clock d bs,
  one_line clock /\ short clock -> version_fits (dVersion d) -> short (marshal_version nl ne (dVersion d)) ->
  dFields d <> [] /\ Forall (fun f => no_byte x2c f /\ one_line f) (dFields d) /\ short (join x2c (dFields d)) ->
  Forall2 (fun r b => net_is (cidr r) b /\ aligned b) (dIps d) bs ->
  Forall (fun r => length (fvals r) = length (dFields d) /\
     Forall (fun v => no_byte x09 v /\ one_line v) (fvals r) /\ short (join x2c (fvals r))) (dIps d) ->
  scannable (marshal_version nl ne) unmarshal_version clock d bs.
Proof.
  intros nl ne clock d bs Hc Hv Hs Hf Hn Hr. constructor; try assumption.
  - apply C54_version_round_trip. assumption.
  - split; [apply C54_version_line|]; assumption.
Qed.
Print Assumptions C54_scannable.
Example C54_scan_case : version_fits demo_version /\ short (marshal_version false false demo_version) /\
  marshal_version false false demo_version =
  str "{""IpType"":1,""Count"":2,""Build"":0,""Version"":""20200101"",""Languages"":[""CN""],""ExtraInfo"":[]}".
Proof.
  split; [|split; vm_compute; reflexivity].
  constructor; cbn [demo_version vIpType vCount vBuild vVersion vLanguages vExtra]; try (unfold int64; lia); try ascii; try constructor; try ascii. constructor.
Qed.

(* ---------- cases for C43 and C44 ---------- *)
(** The dataset of C11 satisfies every premise of C43 and C44, and the three readers
    answer 1.0.0.7 as described: no line column, so Java shows the AS number as line. *)
Definition id_text (s : bytes) : bytes := s.
Example C43_C44_premises : Forall2 row_ok (dIps case_ipd) case_blocks /\ plain_columns (dFields case_ipd) /\
  (2 <= length (dFields case_ipd))%nat /\ json_ok (marshal_meta true true) unmarshal_meta 0 case_ipd /\
  json_ok32 (marshal_meta true true) unmarshal_meta 0 case_ipd /\ decodes id_text /\
  Forall (fun r => Forall utf8 (fvals r)) (dIps case_ipd) /\
  takes (vIpType (dVersion case_ipd)) [x01; x00; x00; x07] /\
  holds_family (vIpType (dVersion case_ipd)) (addr [x01; x00; x00; x07]) = true /\
  lookup (store_all (combine case_blocks (map fvals (dIps case_ipd)))) (addr [x01; x00; x00; x07]) =
    Some (mkBlock (v4base + 0x01000000) 8, [str "CN"; str "AS"; str "4134"]).
Proof.
  destruct C11_case as (A & _ & B & _). destruct utf8_case as [U1 U2].
  destruct (C54_json_ok true true 0 case_ipd U1 ltac:(unfold int64; lia)) as [J1 J2].
  do 2 (split; [assumption|]). split; [cbn; lia|]. do 2 (split; [assumption|]). split; [intros s _; reflexivity|].
  split; [assumption|]. split; [left; split; [reflexivity|discriminate]|]. split; vm_compute; reflexivity.
Qed.
Example C43_C44_answers :
  rust_answer (dFields case_ipd) [str "CN"; str "AS"; str "4134"] = Ok (mkInfo (str "CN") [] [] [] (str "4134") [] (str "亚洲") []) /\
  java_answer (dFields case_ipd) [str "CN"; str "AS"; str "4134"] =
    Ok (mkJInfo (Some (str "CN")) None None None (Some (str "4134")) None (Some (str "亚洲")) (Some (str "4134"))) /\
  rust_answer (dFields case_ipd) [str "CN"; str "亚洲"; str "4134"] = Ok (mkInfo (str "CN") [] [] [] (str "4134") [] [] []) /\
  rust_answer (dFields case_ipd) [str "CN"] = Panic /\ java_answer (dFields case_ipd) [str "CN"] = Panic /\
  java_answer [str "country"; str "city"] [str "CN"; str "a"; str "b"] =
    Ok (mkJInfo (Some (str "CN")) None None (Some (str "a	b")) None None None None).
Proof. vm_compute. repeat split. Qed.

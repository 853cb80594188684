(** Property theorems C75: answers as text in Rust and Java; the command line tool of Rust. *)
From Coq Require Import ZArith List Lia.
From Verif Require Import Base NetIP Spec NetText NetTextProofs Inf Ipdb SpecIpdb IpNetProofs PackProofs PropsIpdb Operate SpecOperate Json JsonProofs Foreign ForeignApi Facade Convert Cmd SpecForeign.
From Verif Require Import WriterProofs PropsForeign PropsFacade PropsFacade2 PropsJson PropsVersion PropsCmd ForeignFile ForeignCmd.
Import ListNotations.
Open Scope nat_scope.

(* ---------- specification: name and text, separated by ", " ---------- *)
(** name: text, name: text, ... *)
Definition listed (l : list (bytes * bytes)) : bytes :=
  match map (fun w => fst w ++ str ": " ++ snd w) l with
  | [] => []
  | x :: r => x ++ concat (map (fun y => str ", " ++ y) r)
  end.
Definition no_commas (l : list bytes) : Prop := Forall (no_byte x2c) l.
Definition texts_of (i : IpInfo) : list bytes := map snd (words_of i).
(** The eight texts of a Java answer; null where nothing is known. *)
Definition java_texts (i : JInfo) : list (bytes * option bytes) :=
  [ (str "country", jCountry i); (str "district", jDistrict i); (str "province", jProvince i); (str "city", jCity i);
    (str "asn", jAsn i); (str "isp", jIsp i); (str "continent", jContinent i); (str "line", jLine i) ].
Definition or_null (o : option bytes) : bytes := match o with Some v => v | None => str "null" end.

Lemma rs_shown i : rs_show_info i = listed (words_of i).
Proof. unfold rs_show_info, listed, words_of. cbn [map fst snd concat]. repeat first [rewrite <- app_assoc | rewrite <- app_comm_cons]. rewrite ?app_nil_r. reflexivity. Qed.
Lemma j_shown i : j_show_info i = listed (map (fun w => (fst w, or_null (snd w))) (java_texts i)).
Proof. unfold j_show_info, listed, java_texts. cbn [map fst snd concat]. repeat first [rewrite <- app_assoc | rewrite <- app_comm_cons]. rewrite ?app_nil_r. reflexivity. Qed.

(** Texts without a comma can be read off. *)
Lemma cut_comma : forall a a' r r', no_byte x2c a -> no_byte x2c a' -> a ++ x2c :: r = a' ++ x2c :: r' -> a = a' /\ r = r'.
Proof.
  induction a as [|c a IH]; intros [|c' a'] r r' H H' E; cbn [app] in E.
  - injection E as E. auto.
  - injection E as <- _. exfalso. apply H'. left. reflexivity.
  - injection E as -> _. exfalso. apply H. left. reflexivity.
  - injection E as -> E. destruct (IH a' r r') as [-> ->]; try assumption; try (intros X; apply H; right; exact X); try (intros X; apply H'; right; exact X). auto.
Qed.
Lemma listed_cons n v l : l <> [] -> listed ((n, v) :: l) = n ++ str ": " ++ v ++ str ", " ++ listed l.
Proof.
  intros N. destruct l as [|[n2 v2] l]; [congruence|]. unfold listed. cbn [map fst snd concat]. repeat rewrite <- app_assoc. reflexivity.
Qed.
Lemma listed_inj : forall ns vs vs', length vs = length ns -> length vs' = length ns -> no_commas vs -> no_commas vs' ->
  listed (combine ns vs) = listed (combine ns vs') -> vs = vs'.
Proof.
  induction ns as [|n ns IH]; intros vs vs' L L' C C' E.
  - destruct vs, vs'; try discriminate; reflexivity.
  - destruct vs as [|v vs]; [discriminate|]. destruct vs' as [|v' vs']; [discriminate|]. cbn [combine] in E.
    inversion C as [|? ? C1 C2]; subst. inversion C' as [|? ? C1' C2']; subst. cbn [length] in L, L'.
    destruct ns as [|m ns].
    + destruct vs; [|discriminate]. destruct vs'; [|discriminate]. unfold listed in E. cbn [combine map fst snd concat] in E. rewrite !app_nil_r in E.
      apply app_inv_head in E. apply app_inv_head in E. congruence.
    + assert (combine (m :: ns) vs <> []) as N by (destruct vs; discriminate). assert (combine (m :: ns) vs' <> []) as N' by (destruct vs'; discriminate).
      rewrite !listed_cons in E by assumption. apply app_inv_head in E. apply app_inv_head in E.
      change (str ", ") with [x2c; x20] in E. cbn [app] in E. apply cut_comma in E as [-> E]; [|assumption..]. injection E as E.
      f_equal. apply IH; try assumption; lia.
Qed.

(** C75: the text of a Rust answer lists the eight texts, and tells the answer when none of them has a comma. *)
Theorem C75_rust_text : forall i, rs_show_info i = listed (words_of i) /\
  forall i', no_commas (texts_of i) -> no_commas (texts_of i') -> rs_show_info i = rs_show_info i' -> i = i'.
Proof.
  intros i. split; [apply rs_shown|]. intros i' C C' E. rewrite !rs_shown in E.
  assert (forall x, words_of x = combine (map fst (words_of emptyInfo)) (texts_of x)) as W by reflexivity.
  rewrite (W i), (W i') in E. apply listed_inj in E; try assumption; try reflexivity.
  destruct i, i'. cbn in E. congruence.
Qed.
Print Assumptions C75_rust_text.

(** C75: the text of a Java answer shows null for what is not known, and tells the answer when no text has a comma and
    none is null itself. *)
Theorem C75_java_text : forall i, j_show_info i = listed (map (fun w => (fst w, or_null (snd w))) (java_texts i)) /\
  forall i', (forall j w v, In j [i; i'] -> In (w, Some v) (java_texts j) -> no_byte x2c v /\ v <> str "null") ->
    j_show_info i = j_show_info i' -> i = i'.
Proof.
  intros i. split; [apply j_shown|]. intros i' C E. rewrite !j_shown in E.
  assert (forall x, map (fun w => (fst w, or_null (snd w))) (java_texts x) = combine (map fst (java_texts emptyJInfo)) (map (fun w => or_null (snd w)) (java_texts x))) as W by reflexivity.
  rewrite (W i), (W i') in E.
  assert (forall x, In x [i; i'] -> no_commas (map (fun w => or_null (snd w)) (java_texts x))) as N.
  { intros x I. apply Forall_forall. intros t T. apply in_map_iff in T as ([w o] & <- & T). cbn [snd].
    destruct o as [v|]; [apply (C x w v I T)|]. cbn [or_null]. intros X. vm_compute in X. intuition discriminate. }
  apply listed_inj in E; [|reflexivity|reflexivity|apply N; cbn; auto|apply N; cbn; auto].
  assert (forall o o', or_null o = or_null o' -> (forall v, o = Some v -> v <> str "null") -> (forall v, o' = Some v -> v <> str "null") -> o = o') as U.
  { intros [a|] [b|] H H1 H2; cbn [or_null] in H; [congruence| | |reflexivity]; exfalso; [apply (H1 a)|apply (H2 b)]; congruence. }
  destruct i as [a1 a2 a3 a4 a5 a6 a7 a8], i' as [b1 b2 b3 b4 b5 b6 b7 b8].
  unfold java_texts in *. cbn [map snd jCountry jDistrict jProvince jCity jAsn jIsp jContinent jLine] in *.
  set (A := mkJInfo a1 a2 a3 a4 a5 a6 a7 a8) in *. set (B := mkJInfo b1 b2 b3 b4 b5 b6 b7 b8) in *.
  injection E as E1 E2 E3 E4 E5 E6 E7 E8.
  unfold A, B. f_equal; apply U; try assumption; intros v ->.
  all: first [refine (proj2 (C A _ v ltac:(left; reflexivity) _)); cbn; tauto | refine (proj2 (C B _ v ltac:(right; left; reflexivity) _)); cbn; tauto].
Qed.
Print Assumptions C75_java_text.

(** ... and in general neither does. *)
Theorem C75_ambiguous_refuted :
  (exists i i', i <> i' /\ rs_show_info i = rs_show_info i' /\ iCountry i <> iCountry i') /\
  (exists i i', i <> i' /\ j_show_info i = j_show_info i' /\ jCountry i = None /\ jCountry i' = Some (str "null")).
Proof.
  split.
  - exists (mkInfo (str "A, District: B") (str "C, Province: D") (str "E") [] [] [] [] []), (mkInfo (str "A") (str "B, District: C") (str "D, Province: E") [] [] [] [] []).
    split; [intros X; discriminate X|]. split; [reflexivity|]. intros X; discriminate X.
  - exists emptyJInfo, (mkJInfo (Some (str "null")) None None None None None None None). split; [intros X; discriminate X|]. repeat split.
Qed.
Print Assumptions C75_ambiguous_refuted.

(** The first line of the Rust tool; the line for an answer; the line for an error. *)
Definition args_line (show_args : list bytes -> bytes) (args : list bytes) : bytes := str "args: " ++ show_args args ++ [x0a].
Definition info_line (text : bytes) (i : IpInfo) : bytes := str "query ip: " ++ text ++ str ", info: " ++ listed (words_of i) ++ [x0a].
Definition error_line (what : bytes) : bytes := what ++ [x0a].

(** C75: what the Rust tool writes, for every file and every text. *)
Theorem C75_run : forall show_args show_error unmarshal parse lossy fs prog f text more,
  let args := prog :: f :: text :: more in
  let run := rs_main show_args show_error unmarshal parse lossy fs args in
  (forall data r, fs f = Some data -> rs_new unmarshal data = Ok r ->
     (forall ip, parse text = Some ip ->
        (forall i, rs_query lossy r ip = Ok i -> run = Ok (args_line show_args args ++ info_line text i)) /\
        (forall e, rs_query lossy r ip = Err e -> run = Ok (args_line show_args args ++ error_line (str "query ip: " ++ text ++ str ", error: " ++ show_error e))) /\
        (rs_query lossy r ip = Panic -> run = Panic)) /\
     (parse text = None -> exists e, run = Ok (args_line show_args args ++ error_line (str "query ip: " ++ text ++ str ", error: " ++ show_error e)))) /\
  (forall data e, fs f = Some data -> rs_new unmarshal data = Err e ->
     run = Ok (args_line show_args args ++ error_line (str "open ipdb error: " ++ show_error e))) /\
  (forall data, fs f = Some data -> rs_new unmarshal data = Panic -> run = Panic) /\
  (fs f = None -> exists e, run = Ok (args_line show_args args ++ error_line (str "open ipdb error: " ++ show_error e))) /\
  (forall l, length l < 2 -> rs_main show_args show_error unmarshal parse lossy fs (prog :: l) =
     Ok (args_line show_args (prog :: l) ++ error_line (str "Usage: " ++ prog ++ str " <ipdb> <ip>"))).
Proof.
  intros show_args show_error unmarshal parse lossy fs prog f text more args run. unfold args_line, info_line, error_line. split; [|split; [|split; [|split]]].
  - intros data r Ef Er. unfold run, args, rs_main, rs_from_file. rewrite Ef, Er. unfold rs_query_str. split.
    + intros ip ->. split; [|split].
      * intros i ->. rewrite rs_shown. repeat rewrite <- app_assoc. reflexivity.
      * intros e ->. repeat rewrite <- app_assoc. reflexivity.
      * intros ->. reflexivity.
    + intros ->. eexists. repeat rewrite <- app_assoc. reflexivity.
  - intros data e Ef Er. unfold run, args, rs_main, rs_from_file. rewrite Ef, Er. repeat rewrite <- app_assoc. reflexivity.
  - intros data Ef Er. unfold run, args, rs_main, rs_from_file. rewrite Ef, Er. reflexivity.
  - intros Ef. unfold run, args, rs_main, rs_from_file. rewrite Ef. eexists. repeat rewrite <- app_assoc. reflexivity.
  - intros l L. destruct l as [|a [|b l]]; cbn [length] in L; [| |lia]; cbn [rs_main]; repeat rewrite <- app_assoc; reflexivity.
Qed.
Print Assumptions C75_run.

Lemma disjoint_lookup (ipd : IpData) bs i row b ip : length (dIps ipd) = length bs -> disjoint bs ->
  nth_error (dIps ipd) i = Some row -> nth_error bs i = Some b -> in_block b (addr ip) ->
  lookup (store_all (combine bs (map fvals (dIps ipd)))) (addr ip) = Some (b, fvals row).
Proof.
  intros Lb HD Hi Hb B.
  assert (map fst (combine bs (map fvals (dIps ipd))) = bs) as Ef.
  { assert (length bs = length (map fvals (dIps ipd))) as L2 by (rewrite map_length; lia).
    revert L2. clear. generalize (map fvals (dIps ipd)). induction bs as [|x bs IH]; intros [|y l] L; try discriminate; [reflexivity|].
    cbn. f_equal. apply IH. cbn in L. lia. }
  assert (nth_error (combine bs (map fvals (dIps ipd))) i = Some (b, fvals row)) as Hc.
  { assert (nth_error (map fvals (dIps ipd)) i = Some (fvals row)) as Hm by (rewrite nth_error_map, Hi; reflexivity).
    revert Hb Hm. clear. generalize (map fvals (dIps ipd)). revert i. induction bs as [|x bs IH]; intros [|i] [|y l]; cbn; try discriminate.
    - intros A B. congruence.
    - intros A B. apply IH; assumption. }
  set (l := combine bs (map fvals (dIps ipd))) in *.
  assert (disjoint (map fst l)) as HD2 by (replace (map fst l) with bs by (symmetry; exact Ef); assumption).
  assert (In (b, fvals row) (store_all l)) as I by (apply store_all_disjoint; [assumption|eapply nth_error_In; eassumption]).
  destruct (lookup (store_all l) (addr ip)) as [[b' row']|] eqn:L.
  - unfold lookup in L. apply find_some in L as [I' B']. cbn [fst] in B'. apply in_blockb_iff in B'.
    apply store_all_in in I'. apply In_nth_error in I' as [j Hj].
    assert (j = i) as ->.
    { destruct (Nat.eq_dec j i) as [|N]; [assumption|exfalso].
      apply (HD j i b' b N) with (a := addr ip); [|assumption|auto].
      change (nth_error bs j = Some (fst (b', row'))). rewrite <- Ef. exact (map_nth_error fst _ _ Hj). }
    rewrite Hc in Hj. congruence.
  - exfalso. unfold lookup in L. pose proof (find_none _ _ L _ I) as X. cbn [fst] in X. apply in_blockb_iff in B. congruence.
Qed.

(** C75: the same database, the same address, the tools of Go and Rust. *)
Theorem C75_packed : forall E ipList nl ne show_args show_error unmarshal_rs parse lossy d bs f fs prog,
  Forall2 row_ok (dIps (contents d)) bs -> disjoint bs -> plain_columns (hFields d) -> 2 <= length (hFields d) ->
  json_ok (jMeta E) (jUnMeta E) (eNow E) (contents d) -> json_ok32 (jMeta E) unmarshal_rs (eNow E) (contents d) ->
  decodes lossy -> Forall (fun r => Forall utf8 (fvals r)) (dIps (contents d)) -> reads4 parse -> reads6 parse ->
  path_ext f = str ".ipdb" ->
  exists data, PackBytes (converterFormats E) (str ".ipdb") d = Ok (data, d) /\
    ((Z.of_nat (length data) < 2 ^ 31)%Z -> fs f = Some data ->
       (forall i row b ip, nth_error (dIps (contents d)) i = Some row -> nth_error bs i = Some b ->
          length (hFields d) <= length (fvals row) -> plain_address ip -> in_block b (addr ip) ->
          takes (vIpType (hVersion d)) ip -> holds_family (vIpType (hVersion d)) (addr ip) = true ->
          let g := row_info (hFields d) (fvals row) in let args := [prog; f; ip_string ip] in
          simpleMain E ipList nl ne fs [f; ip_string ip] = Ok (line_of g, None) /\
          exists x, rs_main show_args show_error unmarshal_rs parse lossy fs args =
                      Ok (args_line show_args args ++ info_line (ip_string ip) x) /\ same_but_continent x g /\
            (forall v, values_of continent_names (hFields d) (fvals row) = [v] ->
               iContinent g = continent_name v /\ iContinent x = match assoc v continents with Some n => n | None => [] end)) /\
       (forall ip, plain_address ip -> takes (vIpType (hVersion d)) ip -> (forall b, In b bs -> ~ in_block b (addr ip)) ->
          simpleMain E ipList nl ne fs [f; ip_string ip] = Ok ([], Some ErrDatabaseError) /\
          ((Z.of_nat (length data) < 2 ^ 19)%Z -> Exists (fun c => In c known_columns) (tl (hFields d)) ->
             rs_main show_args show_error unmarshal_rs parse lossy fs [prog; f; ip_string ip] = Panic))).
Proof.
  intros E il nl ne sa se urs parse lossy d bs f fs prog HR HD HC HF HJ HJ32 HL HU R4 R6 HP.
  assert (hFields d <> []) as HF' by (intros X; rewrite X in HF; cbn in HF; lia).
  destruct (C66_packed E il nl ne d bs f fs [] HR HD HC HF HJ HP) as (data & P & Q). exists data. split; [assumption|]. intros Hs Hf.
  destruct (Q ltac:(lia) Hf) as [Q1 Q2].
  assert (pack (jMeta E) (eNow E) (contents d) = Ok data) as P'.
  { unfold PackBytes in P. change (GetPackFormat (converterFormats E) (str ".ipdb")) with (Some (packH (jMeta E) (eNow E))) in P.
    cbv beta iota in P. rewrite packH_plain in P by assumption. destruct (pack (jMeta E) (eNow E) (contents d)); cbn [bind] in P; congruence. }
  destruct (C43_rust_agrees _ _ _ lossy (eNow E) _ bs HR HC HF' HJ HJ32 HL HU) as (data1 & P1 & A1). rewrite P' in P1. injection P1 as <-.
  destruct (A1 Hs) as (q & r & Oq & Or & A). clear A1.
  assert (forall ip, plain_address ip -> parse (ip_string ip) = Some ip) as PA by (intros ip [L|[L N]]; [apply R4|apply R6]; assumption).
  assert (forall ip, plain_address ip -> valid_ip ip) as VA by (intros ip [L|[L _]]; [left|right]; assumption).
  assert (forall ip, plain_address ip -> forall t, t = ip_string ip -> (forall i, rs_query lossy r ip = Ok i ->
            rs_main sa se urs parse lossy fs [prog; f; t] = Ok (args_line sa [prog; f; t] ++ info_line t i)) /\
          (rs_query lossy r ip = Panic -> rs_main sa se urs parse lossy fs [prog; f; t] = Panic)) as RUN.
  { intros ip Pl t ->. destruct (C75_run sa se urs parse lossy fs prog f (ip_string ip) []) as (R & _).
    destruct (R data r Hf Or) as [R' _]. destruct (R' ip (PA ip Pl)) as (X1 & _ & X2). split; assumption. }
  split.
  - intros i row b ip Hi Hb Hl Pl B T F g args. split; [apply (Q1 i row b ip); auto|].
    destruct (A ip b (fvals row) T F (disjoint_lookup _ _ _ _ _ _ (Forall2_length HR) HD Hi Hb B) Hl) as (g' & x & Qg & Qx & S & C).
    destruct (C12_pack_query _ _ _ _ _ HR HC HF' HJ) as (data2 & P2 & H2). rewrite P' in P2. injection P2 as <-.
    destruct (H2 ltac:(lia)) as (q2 & O2 & Q3). rewrite Oq in O2. injection O2 as <-.
    rewrite Q3 in Qg by auto. unfold answer in Qg. change (dVersion (contents d)) with (hVersion d) in Qg. rewrite F in Qg.
    rewrite (disjoint_lookup _ _ _ _ _ _ (Forall2_length HR) HD Hi Hb B) in Qg. change (dFields (contents d)) with (hFields d) in Qg.
    replace (length (fvals row) <? length (hFields d)) with false in Qg by lia. injection Qg as <-.
    exists x. split; [exact (proj1 (RUN ip Pl _ eq_refl) x Qx)|]. split; assumption.
  - intros ip Pl T N. split; [apply Q2; auto|]. intros H19 Ex.
    destruct (C43_rust_no_record _ _ _ lossy (eNow E) _ bs HR HC HF HJ HJ32 HL HU) as (data3 & P3 & A3). rewrite P' in P3. injection P3 as <-.
    destruct (A3 H19) as (q3 & r3 & _ & Or3 & B3). rewrite Or in Or3. injection Or3 as <-.
    destruct (B3 ip T N) as (_ & B4 & _). exact (proj2 (RUN ip Pl _ eq_refl) (B4 Ex)).
Qed.
Print Assumptions C75_packed.

(** Cases.  The premises of C75_packed are those of C43_C44_premises and C66_case. *)
Example C75_case : no_commas (texts_of (row_info (dFields case_ipd) [str "CN"; str "AS"; str "4134"])) /\
  rs_show_info (rust_info (dFields case_ipd) [str "CN"; str "AS"; str "4134"]) =
    str "Country: CN, District: , Province: , City: , Asn: 4134, Isp: , Continent: 亚洲, Line: " /\
  j_show_info (mkJInfo (Some (str "CN")) None None None (Some (str "4134")) None (Some (str "亚洲")) (Some (str "4134"))) =
    str "country: CN, district: null, province: null, city: null, asn: 4134, isp: null, continent: 亚洲, line: 4134".
Proof.
  split; [|split; vm_compute; reflexivity].
  unfold no_commas, texts_of, words_of.
  repeat (apply Forall_cons; [intros X; vm_compute in X; repeat (destruct X as [X|X]; [discriminate X|]); exact X|]). constructor.
Qed.

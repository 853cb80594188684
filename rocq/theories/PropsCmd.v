(** Property theorems C66: the command line programs simple and server.  Vocabulary: Spec.v,
    SpecIpdb.v. *)
From Verif Require Import Base NetIP NetText NetTextProofs Spec Inf Ipdb SpecIpdb Operate SpecOperate Server SpecForeign JsonProofs PropsIpdb PropsJson PropsFacade PropsFacade2 PropsServer.
From Verif Require Import Convert PropsConvert4 Cmd.
Open Scope Z_scope.

Lemma v_no_address s : ParseIP (x76 :: s) = None.
Proof.
  unfold ParseIP. destruct (first_special (x76 :: s)) as [c|]; [|reflexivity]. destruct (byte_eqb c x2e); reflexivity.
Qed.
Lemma address_no_v s ip : ParseIP s = Some ip -> starts_v s = false.
Proof.
  intros H. destruct s as [|c r]; [reflexivity|]. cbn [starts_v]. destruct (byte_eqb c x76) eqn:Ec; [|reflexivity].
  destruct (bytes_eqb_spec [c] [x76]) as [X|X].
  - injection X as ->. rewrite v_no_address in H. discriminate.
  - exfalso. apply X. unfold bytes_eqb in *. cbn in *. destruct c; try discriminate Ec. reflexivity.
Qed.

(* ---------- specification: the line that simple writes ---------- *)
Definition words_of (i : IpInfo) : list (bytes * bytes) :=
  [ (str "Country", iCountry i); (str "District", iDistrict i); (str "Province", iProvince i); (str "City", iCity i);
    (str "Asn", iAsn i); (str "Isp", iIsp i); (str "Continent", iContinent i); (str "Line", iLine i) ].
(** &{Name:text Name:text ...} *)
Definition line_of (i : IpInfo) : bytes :=
  str "&{" ++ join x20 (map (fun w => fst w ++ str ":" ++ snd w) (words_of i)) ++ str "}" ++ [x0a].
Lemma show_line i : show_info (Some i) ++ [x0a] = line_of i.
Proof.
  unfold show_info, show_fields, line_of, words_of. cbn [map fst snd join].
  repeat first [rewrite <- app_assoc | rewrite <- app_comm_cons]. reflexivity.
Qed.

Definition opens (E : env) (ipList : list bytes) (fs : files) (f : bytes) (q : queryDb) : Prop :=
  exists data, fs f = Some data /\ NewDbFromBytes (serverFormats E) ipList (path_ext f) data = Ok q.
Lemma opens_db E il fs f q : opens E il fs f q -> NewDb (serverFormats E) il f (fs f) = Ok q.
Proof. intros (data & Ef & H). rewrite Ef. exact H. Qed.

(** C66: what simple writes for every file that opens and every text. *)
Theorem C66_run : forall E ipList nl ne fs f text more q, opens E ipList fs f q ->
  (forall ip, ParseIP text = Some ip ->
     (forall i m, DbQuery q ip = Ok (Some i, m, None) -> simpleMain E ipList nl ne fs (f :: text :: more) = Ok (line_of i, None)) /\
     (forall e, DbQuery q ip = Ok (None, 0%nat, Some e) -> simpleMain E ipList nl ne fs (f :: text :: more) = Ok ([], Some e)) /\
     (DbQuery q ip = Panic -> simpleMain E ipList nl ne fs (f :: text :: more) = Panic)) /\
  (forall r, text = str "v" ++ r -> exists body, http_get nl ne q (str "/version") = Ok (200, body) /\
     simpleMain E ipList nl ne fs (f :: text :: more) = Ok (body ++ [x0a], None)) /\
  (ParseIP text = None -> (forall r, text <> str "v" ++ r) ->
     simpleMain E ipList nl ne fs (f :: text :: more) = Ok ([], Some (ErrOther (str "invalid ip: " ++ text)))).
Proof.
  intros E il nl ne fs f text more q O. unfold simpleMain. rewrite (opens_db _ _ _ _ _ O). split; [|split].
  - intros ip P. rewrite (address_no_v _ _ P). unfold QueryStr. rewrite P. split; [|split].
    + intros i m ->. cbn [bind]. rewrite show_line. reflexivity.
    + intros e ->. reflexivity.
    + intros ->. reflexivity.
  - intros r ->. eexists. split; reflexivity.
  - intros P N. destruct (starts_v text) eqn:V; [|unfold QueryStr; rewrite P; reflexivity].
    exfalso. destruct text as [|c r]; [discriminate|]. cbn [starts_v] in V. destruct (byte_eqb_spec c x76) as [->|]; [|discriminate].
    apply (N r). reflexivity.
Qed.
Print Assumptions C66_run.

(** C66: an address and its text. *)
Theorem C66_address : forall E ipList nl ne fs f ip more q, opens E ipList fs f q -> valid_ip ip ->
  forall out err, simpleMain E ipList nl ne fs (f :: ip_string ip :: more) = Ok (out, err) ->
    (exists i m, QueryStr q (ip_string ip) = Ok (Some i, m, None) /\ out = line_of i /\ err = None) \/
    (exists e, QueryStr q (ip_string ip) = Ok (None, 0%nat, Some e) /\ out = [] /\ err = Some e).
Proof.
  intros E il nl ne fs f ip more q O V out err H.
  destruct (C66_run E il nl ne fs f (ip_string ip) more q O) as [A _]. destruct (A _ (ParseIP_string ip V)) as (A1 & A2 & A3).
  rewrite C47_str by assumption. unfold simpleMain in H. rewrite (opens_db _ _ _ _ _ O), (address_no_v _ _ (ParseIP_string ip V)), C47_str in H by assumption.
  destruct (DbQuery_results q ip) as [(i & m & Q)|[(e & Q)|[Q|Q]]]; rewrite Q in *; cbn [bind] in H; try discriminate H.
  - left. exists i, m. split; [reflexivity|]. rewrite show_line in H. split; congruence.
  - right. exists e. split; [reflexivity|]. split; congruence.
Qed.
Print Assumptions C66_address.

(** C66: the line tells the answer when no text of it has a space. *)
Definition no_spaces (i : IpInfo) : Prop := Forall (fun w => no_byte x20 (snd w)) (words_of i).
Lemma cut_space : forall a a' r r', no_byte x20 a -> no_byte x20 a' -> a ++ x20 :: r = a' ++ x20 :: r' -> a = a' /\ r = r'.
Proof.
  induction a as [|c a IH]; intros [|c' a'] r r' H H' E; cbn [app] in E.
  - injection E as E. auto.
  - injection E as <- _. exfalso. apply H'. left. reflexivity.
  - injection E as -> _. exfalso. apply H. left. reflexivity.
  - injection E as -> E. destruct (IH a' r r') as [-> ->]; try assumption; try (intros X; apply H; right; exact X); try (intros X; apply H'; right; exact X). auto.
Qed.
Theorem C66_readable : forall i i', no_spaces i -> no_spaces i' -> line_of i = line_of i' -> i = i'.
Proof.
  intros i i' N N' E. rewrite <- !show_line in E. apply app_inv_tail in E. unfold show_info in E. apply app_inv_head in E. apply app_inv_tail in E.
  unfold no_spaces, words_of in *.
  repeat match goal with H : Forall _ (_ :: _) |- _ => apply Forall_cons_iff in H; cbn [snd] in H; destruct H end.
  destruct i as [co di pr ci asn isp ct ln], i' as [co' di' pr' ci' asn' isp' ct' ln'].
  unfold show_fields in E. cbn [iCountry iDistrict iProvince iCity iAsn iIsp iContinent iLine] in *.
  apply app_inv_head in E.
  apply cut_space in E as [-> E]; [|assumption..]. apply (app_inv_head (str "District:")) in E.
  apply cut_space in E as [-> E]; [|assumption..]. apply (app_inv_head (str "Province:")) in E.
  apply cut_space in E as [-> E]; [|assumption..]. apply (app_inv_head (str "City:")) in E.
  apply cut_space in E as [-> E]; [|assumption..]. apply (app_inv_head (str "Asn:")) in E.
  apply cut_space in E as [-> E]; [|assumption..]. apply (app_inv_head (str "Isp:")) in E.
  apply cut_space in E as [-> E]; [|assumption..]. apply (app_inv_head (str "Continent:")) in E.
  apply cut_space in E as [-> E]; [|assumption..]. apply (app_inv_head (str "Line:")) in E. subst. reflexivity.
Qed.
Print Assumptions C66_readable.
(** ... and does not in general. *)
Theorem C66_ambiguous_refuted : exists i i', i <> i' /\ line_of i = line_of i' /\ iCountry i <> iCountry i'.
Proof.
  exists (mkInfo (str "A District:B") (str "C Province:D") (str "E") [] [] [] [] []), (mkInfo (str "A") (str "B District:C") (str "D Province:E") [] [] [] [] []).
  split; [intros X; discriminate X|]. split; [reflexivity|]. intros X; discriminate X.
Qed.

(** C66: the other ways to end: both programs need two arguments and a file they can read. *)
Theorem C66_start : forall E ipList nl ne fs args,
  ((length args < 2)%nat -> simpleMain E ipList nl ne fs args = Panic /\ serverMain E ipList fs args = Panic) /\
  (forall f a more, args = f :: a :: more ->
     (fs f = None -> simpleMain E ipList nl ne fs args = Panic /\ serverMain E ipList fs args = Panic) /\
     (forall data, fs f = Some data ->
        (path_ext f <> str ".ipdb" -> path_ext f <> str ".awdb" ->
           simpleMain E ipList nl ne fs args = Ok ([], Some ErrUnsupportedFormat) /\ serverMain E ipList fs args = Ok (None, Some ErrUnsupportedFormat)) /\
        (forall e, NewDbFromBytes (serverFormats E) ipList (path_ext f) data = Err e ->
           simpleMain E ipList nl ne fs args = Ok ([], Some e) /\ serverMain E ipList fs args = Ok (None, Some e)) /\
        (forall q, NewDbFromBytes (serverFormats E) ipList (path_ext f) data = Ok q -> serverMain E ipList fs args = Ok (Some q, None)))).
Proof.
  intros E il nl ne fs args. split.
  - intros L. destruct args as [|a [|b r]]; cbn [length] in L; [split; reflexivity|split; reflexivity|lia].
  - intros f a more ->. unfold simpleMain, serverMain, NewDb. split.
    + intros ->. split; reflexivity.
    + intros data ->. split; [|split].
      * intros N1 N2. assert (NewDbFromBytes (serverFormats E) il (path_ext f) data = Err ErrUnsupportedFormat) as ->; [|split; reflexivity].
        unfold NewDbFromBytes, serverFormats, GetQueryFormat. cbn -[bytes_eqb str].
        repeat match goal with |- context[bytes_eqb ?a ?b] => destruct (bytes_eqb_spec a b) as [?|?]; [congruence|] end. reflexivity.
      * intros e ->. split; reflexivity.
      * intros q ->. reflexivity.
Qed.
Print Assumptions C66_start.

(** C66: from the packer to the line: any dataset of disjoint rows, packed into a file
    that simple opens. *)
Theorem C66_packed : forall E ipList nl ne d bs f fs more,
  Forall2 row_ok (dIps (contents d)) bs -> disjoint bs -> plain_columns (hFields d) -> (2 <= length (hFields d))%nat ->
  json_ok (jMeta E) (jUnMeta E) (eNow E) (contents d) -> path_ext f = str ".ipdb" ->
  exists data, PackBytes (converterFormats E) (str ".ipdb") d = Ok (data, d) /\
    ((Z.of_nat (length data) < 2 ^ 32)%Z -> fs f = Some data ->
       (forall i row b ip, nth_error (dIps (contents d)) i = Some row -> nth_error bs i = Some b ->
          (length (hFields d) <= length (fvals row))%nat -> valid_ip ip -> in_block b (addr ip) ->
          holds_family (vIpType (hVersion d)) (addr ip) = true ->
          simpleMain E ipList nl ne fs (f :: ip_string ip :: more) = Ok (line_of (row_info (hFields d) (fvals row)), None)) /\
       (forall ip, valid_ip ip -> (forall b, In b bs -> ~ in_block b (addr ip)) ->
          simpleMain E ipList nl ne fs (f :: ip_string ip :: more) = Ok ([], Some ErrDatabaseError))).
Proof.
  intros E il nl ne d bs f fs more HR HD HC HF HJ HP.
  assert (hFields d <> []) as HF' by (intros X; rewrite X in HF; cbn in HF; lia).
  destruct (C47_packed E d bs il HR HD HC HF' HJ) as [data [P Q]]. exists data. split; [assumption|].
  intros Hs Hf. destruct (Q Hs) as [q [O [A B]]].
  assert (opens E il fs f q) as OP by (exists data; rewrite HP; split; assumption).
  split.
  - intros i row b ip Hi Hb Hl V Hin Hfam. specialize (A i row b ip Hi Hb Hl V Hin Hfam). rewrite C47_str in A by assumption.
    destruct (C66_run E il nl ne fs f (ip_string ip) more q OP) as [X _]. destruct (X _ (ParseIP_string ip V)) as (X1 & _).
    revert X1. unfold simpleMain. rewrite (opens_db _ _ _ _ _ OP), (address_no_v _ _ (ParseIP_string ip V)), C47_str by assumption.
    rewrite A. cbn [bind]. intros _. rewrite show_line. reflexivity.
  - intros ip V N. specialize (B ip V N HF). rewrite C47_str in B by assumption.
    unfold simpleMain. rewrite (opens_db _ _ _ _ _ OP), (address_no_v _ _ (ParseIP_string ip V)), C47_str by assumption.
    rewrite B. reflexivity.
Qed.
Print Assumptions C66_packed.
(** A case: the premises of C66_packed are those of C55_case; a line. *)
Example C66_case : no_spaces (row_info (dFields case_ipd) [str "CN"; str "AS"; str "4134"]) /\
  line_of (row_info (dFields case_ipd) [str "CN"; str "AS"; str "4134"]) =
  str "&{Country:CN District: Province: City: Asn:4134 Isp: Continent:亚洲 Line:}" ++ [x0a].
Proof.
  split; [|vm_compute; reflexivity]. unfold no_spaces, words_of.
  repeat (apply Forall_cons; [intros X; vm_compute in X; repeat (destruct X as [X|X]; [discriminate X|]); exact X|]). constructor.
Qed.

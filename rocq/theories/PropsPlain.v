(** Property theorems C31, C32 (plain text format).
    Vocabulary: Spec.v, SpecIpdb.v, SpecExport.v, SpecOperate.v, SpecText.v. *)
From Verif Require Import Base NetIP IpNet Spec IpNetProofs IpNetProofs2 NetTextProofs SpecExport SpecOperate OperateProofs OperateProofs2 BuildProofs ExportProofs PropsExport PackProofs DumpProofs.
From Verif Require Import Plain SpecText PlainProofs.
Open Scope nat_scope.

(** Datasets that fit the format: the version line survives encoding/json and is
    one short line; column names without comma and line ends; as many values as
    columns, without tab and line ends; canonical networks; every line below 64 KiB. *)
Definition short (l : bytes) : Prop := (N.of_nat (length l) < 65000)%N.
Definition one_line (l : bytes) : Prop := no_byte x0a l /\ no_byte x0d l.
Record scannable (marshal : VersionInfo -> bytes) (unmarshal : bytes -> option (option VersionInfo))
       (clock : bytes) (d : IpData) (bs : list block) : Prop := {
  sc_clock : one_line clock /\ short clock;
  sc_json : unmarshal (marshal (dVersion d)) = Some (Some (dVersion d));
  sc_json_line : one_line (marshal (dVersion d)) /\ short (marshal (dVersion d));
  sc_fields : dFields d <> [] /\ Forall (fun f => no_byte x2c f /\ one_line f) (dFields d) /\ short (join x2c (dFields d));
  sc_nets : Forall2 (fun r b => net_is (cidr r) b /\ aligned b) (dIps d) bs;
  sc_values : Forall (fun r => length (fvals r) = length (dFields d) /\
                 Forall (fun v => no_byte x09 v /\ one_line v) (fvals r) /\ short (join x2c (fvals r))) (dIps d) }.


Lemma colc_column f fields vs : colc f (combine fields vs) = column [f] fields vs.
Proof.
  unfold colc, column. f_equal. f_equal. apply filter_ext. intros [a b]. cbn [fst in_array existsb]. rewrite orb_false_r. reflexivity.
Qed.

Lemma field_value_own fields vs f : In f fields ->
  field_value (map (fun f => (f, f)) fields) (rev (combine fields vs)) f = column [f] fields vs.
Proof.
  intros I. unfold field_value. assert (assoc f (map (fun f => (f, f)) fields) = Some f) as ->.
  { induction fields as [|g fields IH]; [destruct I|]. cbn [map assoc]. destruct (bytes_eqb_spec g f) as [->|N]; [reflexivity|].
    apply IH. destruct I; [congruence|assumption]. }
  rewrite assoc_rev_colc. apply colc_column.
Qed.

Lemma upto_end_ex {A} (l : list (A * block)) : (forall b, ends_family b \/ ~ ends_family b) -> exists k, upto_end l k.
Proof.
  intros D. induction l as [|[a b] l [k IH]]; [exists []; constructor|].
  destruct (D b) as [H|H]; [exists [(a, b)]; constructor; assumption|exists ((a, b) :: k); constructor; assumption].
Qed.

Lemma dump_loop_rows fields values (P : list bytes -> list bytes -> Prop) : fields <> [] ->
  (forall v, exists out, values (rev (combine fields (map uncomma v))) = Ok out /\ P v out) ->
  forall rows bs, Forall2 (fun r b => net_is (cidr r) b /\ aligned b) rows bs ->
  Forall (fun r => length (fvals r) = length fields /\ Forall (fun v => no_byte x09 v /\ one_line v) (fvals r) /\ short (join x2c (fvals r))) rows ->
  exists kept out, dump_loop fields values (map (fun r => row_line_text (cidr r) (fvals r)) rows) = Ok out /\
    upto_end (combine rows bs) kept /\
    Forall2 (fun rb r' => net_is (cidr r') (snd rb) /\ P (fvals (fst rb)) (fvals r')) kept out.
Proof.
  intros HF HV rows bs H2. induction H2 as [|r b rows bs [HN AL] H2 IH]; intros HR.
  - exists [], []. cbn. split; [reflexivity|]. split; constructor.
  - inversion HR as [|? ? [L [T S]] HR']; subst. cbn [map dump_loop combine].
    destruct (parseLine_row fields (cidr r) b (fvals r) HN AL L HF) as [n' [E [N' L']]].
    { eapply Forall_impl; [|exact T]. intros v [Hv _]. assumption. }
    rewrite E. cbn [bind]. destruct (HV (fvals r)) as [out [EV PV]]. rewrite EV. cbn [bind].
    assert (L2 : length (nIP n') = (if is_nil (to4 (nIP n')) then 16 else 4)).
    { destruct (to4 (nIP n')) as [|t0 t] eqn:E4; cbn [is_nil].
      - destruct (ni_len _ _ N') as [V|V]; [|assumption]. unfold to4 in E4. rewrite V in E4. cbn [Nat.eqb] in E4. rewrite E4 in V. discriminate V.
      - destruct (is_nil (to4 (nIP (cidr r)))) eqn:Q; [|assumption]. exfalso.
        pose proof (to4_spec (nIP n') (ni_len _ _ N')) as [A1 _]. pose proof (to4_spec (nIP (cidr r)) (ni_len _ _ HN)) as [B1 _].
        rewrite E4 in A1. rewrite <- (ni_base _ _ N') in A1. rewrite <- (ni_base _ _ HN) in B1.
        destruct A1 as [A1 _]. apply B1 in A1; [|discriminate]. destruct (to4 (nIP (cidr r))); [congruence|discriminate Q]. }
    destruct (last_ends n' b N' AL L2) as [l [EL EN]]. rewrite EL. cbn [bind].
    destruct (IsAllMask l) eqn:EM.
    + exists [(r, b)], [mkRaw n' out]. split; [reflexivity|]. split; [constructor; apply EN; reflexivity|].
      constructor; [|constructor]. cbn [cidr fvals fst snd]. auto.
    + destruct (IH HR') as [kept [o [E1 [E2 E3]]]]. rewrite E1. cbn [bind].
      exists ((r, b) :: kept), (mkRaw n' out :: o). split; [reflexivity|]. split.
      * constructor; [|assumption]. intros Q. apply EN in Q. congruence.
      * constructor; [|assumption]. cbn [cidr fvals fst snd]. auto.
Qed.

Lemma one_line_app a b : one_line a -> one_line b -> one_line (a ++ b).
Proof. intros [A1 A2] [B1 B2]. split; intros H; apply in_app_or in H; destruct H; auto. Qed.
Lemma one_line_lit a : forallb (fun c => negb (byte_eqb c x0a) && negb (byte_eqb c x0d)) a = true -> one_line a.
Proof.
  intros H. rewrite forallb_forall in H. split; intros I; apply H in I; discriminate I.
Qed.
Lemma one_line_join sep l : one_line [sep] -> Forall one_line l -> one_line (join sep l).
Proof.
  intros [S1 S2] F. split; apply join_no.
  - intros <-. apply S1. left. reflexivity.
  - eapply Forall_impl; [|exact F]. intros x [H _]; assumption.
  - intros <-. apply S2. left. reflexivity.
  - eapply Forall_impl; [|exact F]. intros x [_ H]; assumption.
Qed.
Lemma join_uncomma_length l : length (join x2c (map uncomma l)) = length (join x2c l).
Proof.
  induction l as [|x l IH]; [reflexivity|]. destruct l as [|y l]; [cbn; apply map_length|].
  cbn [map] in *. rewrite (join_cons x2c (uncomma x)), (join_cons x2c x) by discriminate. rewrite !app_length. cbn [length]. rewrite IH. unfold uncomma at 1. rewrite map_length. reflexivity.
Qed.

(** The packed text, line by line. *)
Lemma pack_lines marshal clock d : legal d ->
  fst (pack marshal clock d) =
  unlines ((str "#### scan dump " ++ clock ++ str " ####") :: (str "#### " ++ marshal (hVersion d))
           :: (str "#### " ++ join x2c (hFields d))
           :: map (fun r => row_line_text (cidr r) (fvals r)) (dIps (contents d))).
Proof.
  intros L. unfold pack. pose proof (pack_rows_spec (hHeap d) (hRows d) (hHeap d) (half_refl _) L) as H.
  destruct (pack_rows (hHeap d) (hRows d)) as [h2 body]. destruct H as [_ [-> _]]. cbn [fst contents dIps].
  cbn [unlines flat_map]. rewrite map_map. cbn [cidr fvals]. rewrite <- !app_assoc. reflexivity.
Qed.

Lemma scannable_lines marshal unmarshal clock d bs : scannable marshal unmarshal clock d bs ->
  scan_lines (unlines ((str "#### scan dump " ++ clock ++ str " ####") :: (str "#### " ++ marshal (dVersion d))
           :: (str "#### " ++ join x2c (dFields d))
           :: map (fun r => row_line_text (cidr r) (fvals r)) (dIps d)))
  = (str "#### scan dump " ++ clock ++ str " ####") :: (str "#### " ++ marshal (dVersion d))
           :: (str "#### " ++ join x2c (dFields d))
           :: map (fun r => row_line_text (cidr r) (fvals r)) (dIps d).
Proof.
  intros [[C1 C2] J [J1 J2] [F1 [F2 F3]] HN HV].
  set (ls := _ :: _). assert (Q : Forall (fun l => one_line l /\ (N.of_nat (length l) < 65536)%N) ls).
  { unfold ls, short in *. constructor; [|constructor; [|constructor]].
    - split; [|rewrite !app_length; cbn [length str list_byte_of_string]; change (length (str "#### scan dump ")) with 15; change (length (str " ####")) with 5; lia].
      apply one_line_app; [apply one_line_lit; reflexivity|]. apply one_line_app; [assumption|apply one_line_lit; reflexivity].
    - split; [|rewrite !app_length; change (length (str "#### ")) with 5; lia].
      apply one_line_app; [apply one_line_lit; reflexivity|assumption].
    - split; [|rewrite !app_length; change (length (str "#### ")) with 5; lia].
      apply one_line_app; [apply one_line_lit; reflexivity|]. apply one_line_join; [apply one_line_lit; reflexivity|].
      eapply Forall_impl; [|exact F2]. intros f [_ H]; assumption.
    - rewrite Forall_map. clear - HN HV. induction HN as [|r b rows bs [N A] HN IH]; [constructor|].
      inversion HV as [|? ? [L [T S]] HV']; subst. constructor; [|apply IH; assumption].
      unfold row_line_text. split.
      + apply one_line_app; [split; eapply net_char_no; eauto using nl_not_net, cr_not_net|].
        change (x09 :: join x2c (map uncomma (fvals r))) with ([x09] ++ join x2c (map uncomma (fvals r))).
        apply one_line_app; [apply one_line_lit; reflexivity|]. apply one_line_join; [apply one_line_lit; reflexivity|].
        rewrite Forall_map. eapply Forall_impl; [|exact T]. intros v [_ [V1 V2]].
        split; apply uncomma_keeps; (discriminate || assumption).
      + rewrite app_length. cbn [length]. rewrite join_uncomma_length. pose proof (net_string_length _ _ N A). unfold short in S. lia. }
  apply scan_unlines; (eapply Forall_impl; [|exact Q]); unfold one_line; tauto.
Qed.

Lemma newDumper_packed marshal unmarshal clock d bs : legal d -> scannable marshal unmarshal clock (contents d) bs ->
  newDumper unmarshal (fst (pack marshal clock d)) =
  Ok (mkTrav (map (fun r => row_line_text (cidr r) (fvals r)) (dIps (contents d))) (hFields d) (Some (hVersion d))).
Proof.
  intros L S. rewrite pack_lines by assumption. unfold newDumper.
  change (hVersion d) with (dVersion (contents d)). change (hFields d) with (dFields (contents d)).
  rewrite (scannable_lines _ _ _ _ _ S).
  assert (D : forall x, drop5 (str "#### " ++ x) = Ok x).
  { intros x. unfold drop5. rewrite app_length. change (length (str "#### ")) with 5. destruct (Nat.ltb_spec (5 + length x) 5); [lia|reflexivity]. }
  rewrite D. cbn [bind]. rewrite (sc_json _ _ _ _ _ S). rewrite D. cbn [bind].
  destruct (sc_fields _ _ _ _ _ S) as [F1 [F2 _]].
  rewrite split_join; [reflexivity|assumption|]. eapply Forall_impl; [|exact F2]. intros f [H _]; assumption.
Qed.

(** C31: dumping the packed text with an exporter e (of a rule over the columns
    of the dataset) gives the rows up to the first one that ends its address family:
    the same blocks, and the values after commas became underscores and the rules
    of e were applied. *)
Theorem C31_roundtrip : forall marshal unmarshal clock d bs e rs,
  legal d -> scannable marshal unmarshal clock (contents d) bs ->
  means e rs -> incl (eFields e) (hFields d) ->
  exists out kept,
    dump unmarshal (fst (pack marshal clock d)) (Some e) = Ok out /\
    dFields out = eFields e /\ dVersion out = hVersion d /\
    upto_end (combine (dIps (contents d)) bs) kept /\
    Forall2 (fun rb r' =>
        net_is (cidr r') (snd rb) /\ length (fvals r') = length (eFields e) /\
        (NoDup (eFields e) ->
         apply_rules (eFields e) rs
           (map (fun f => column [f] (hFields d) (map underscored (fvals (fst rb)))) (eFields e)) (fvals r')))
      kept (dIps out).
Proof.
  intros marshal unmarshal clock d bs e rs L S M I.
  destruct (sc_fields _ _ _ _ _ S) as [F1 _].
  destruct (dump_loop_rows (hFields d) (fun info => Export e (Select (map (fun f => (f, f)) (hFields d)) (eFields e)) info)
    (fun v out => length out = length (eFields e) /\
       (NoDup (eFields e) -> apply_rules (eFields e) rs (map (fun f => column [f] (hFields d) (map underscored v)) (eFields e)) out)) F1)
    with (rows := dIps (contents d)) (bs := bs) as [kept [out [E [U F]]]].
  - intros v. destruct (M (map (fun f => (f, f)) (hFields d)) (rev (combine (hFields d) (map uncomma v)))) as [out [E [Q A]]].
    exists out. split; [assumption|]. split; [assumption|]. intros N. specialize (A N).
    assert (W : map (fun f => column [f] (hFields d) (map underscored v)) (eFields e) =
      map (field_value (map (fun f => (f, f)) (hFields d)) (rev (combine (hFields d) (map uncomma v)))) (eFields e)).
    { apply map_ext_in. intros f Hf. rewrite field_value_own by (apply I; assumption). reflexivity. }
    rewrite W. assumption.
  - exact (sc_nets _ _ _ _ _ S).
  - exact (sc_values _ _ _ _ _ S).
  - exists (mkData (eFields e) (hVersion d) out), kept. unfold dump.
    rewrite (newDumper_packed _ _ _ _ _ L S). cbn [bind tVersion tFields tLines]. rewrite E. cbn [bind].
    split; [reflexivity|]. split; [reflexivity|]. split; [reflexivity|]. split; [assumption|]. exact F.
Qed.
Print Assumptions C31_roundtrip.

(** C31: the empty rule keeps all column names but no value at all (finding). *)
Theorem C31_empty_rule_drops_values : forall marshal unmarshal clock d bs,
  legal d -> scannable marshal unmarshal clock (contents d) bs ->
  exists out kept,
    dump unmarshal (fst (pack marshal clock d)) (ParseRule []) = Ok out /\
    dFields out = hFields d /\
    upto_end (combine (dIps (contents d)) bs) kept /\
    Forall2 (fun rb r' => net_is (cidr r') (snd rb) /\ fvals r' = []) kept (dIps out).
Proof.
  intros marshal unmarshal clock d bs L S.
  destruct (sc_fields _ _ _ _ _ S) as [F1 _].
  destruct (dump_loop_rows (hFields d) (fun info => Ok []) (fun v out => out = []) F1)
    with (rows := dIps (contents d)) (bs := bs) as [kept [out [E [U F]]]].
  - intros v. eauto.
  - exact (sc_nets _ _ _ _ _ S).
  - exact (sc_values _ _ _ _ _ S).
  - exists (mkData (hFields d) (hVersion d) out), kept. unfold dump, ParseRule.
    rewrite (newDumper_packed _ _ _ _ _ L S). cbn [bind tVersion tFields tLines]. rewrite E. cbn [bind].
    split; [reflexivity|]. split; [reflexivity|]. split; [assumption|]. exact F.
Qed.
Print Assumptions C31_empty_rule_drops_values.

(** C32: packing to text leaves the caller's dataset with underscores for commas ... *)
Theorem C32_pack_modifies : forall marshal clock d, legal d ->
  contents (snd (pack marshal clock d)) = with_values (contents d) (fun r => map underscored (fvals r)).
Proof.
  intros marshal clock d L. unfold pack.
  pose proof (pack_rows_spec (hHeap d) (hRows d) (hHeap d) (half_refl _) L) as H.
  destruct (pack_rows (hHeap d) (hRows d)) as [h2 body]. destruct H as [_ [_ H]]. cbn [snd].
  unfold contents, with_values. cbn [hFields hVersion hRows hHeap dFields dVersion dIps]. f_equal. rewrite map_map.
  apply map_ext_in. intros r I. rewrite Forall_forall in H. rewrite (H r I). reflexivity.
Qed.
Print Assumptions C32_pack_modifies.

(** ... so what is packed next differs exactly when some value contains a comma. *)
Theorem C32_changed_iff_comma : forall marshal clock d, legal d ->
  (contents (snd (pack marshal clock d)) <> contents d <->
   exists r v, In r (dIps (contents d)) /\ In v (fvals r) /\ In x2c v).
Proof.
  intros marshal clock d L. rewrite C32_pack_modifies by assumption. unfold with_values.
  assert (U : forall v, underscored v = v <-> ~ In x2c v).
  { intros v. unfold underscored. induction v as [|c v IH]; [cbn; tauto|]. cbn [map In].
    destruct (byte_eqb_spec c x2c) as [->|N].
    - split; [intros E; injection E as E; discriminate|tauto].
    - split; [intros E [Q|Q]; [congruence|]; injection E as E; tauto|]. intros Q. f_equal. tauto. }
  assert (R : forall l, map underscored l = l <-> forall v, In v l -> ~ In x2c v).
  { induction l as [|v l IH]; [cbn; tauto|]. cbn [map In]. split.
    - intros E. injection E as E1 E2. intros w [<-|I]; [apply U; assumption|]. apply IH; assumption.
    - intros H. f_equal; [apply U; auto|apply IH; auto]. }
  destruct (contents d) as [f ver ips]. cbn [dFields dVersion dIps].
  assert (K : map (fun r => mkRaw (cidr r) (map underscored (fvals r))) ips = ips <->
              forall r, In r ips -> map underscored (fvals r) = fvals r).
  { induction ips as [|[n w] ips IH]; [cbn; tauto|]. cbn [map In cidr fvals]. split.
    - intros E. injection E as E1 E2. intros r [<-|I]; [assumption|]. apply IH; assumption.
    - intros H. f_equal; [f_equal; apply (H (mkRaw n w)); auto|]. apply IH. auto. }
  split.
  - intros H. assert (D : {exists r v, In r ips /\ In v (fvals r) /\ In x2c v} + {~ exists r v, In r ips /\ In v (fvals r) /\ In x2c v}).
    { clear. induction ips as [|r ips [IH|IH]].
      - right. intros [r [v [[] _]]].
      - left. destruct IH as [r0 [v [A B]]]. exists r0, v. split; [right; assumption|assumption].
      - assert (E : {exists v, In v (fvals r) /\ In x2c v} + {~ exists v, In v (fvals r) /\ In x2c v}).
        { induction (fvals r) as [|v l [E|E]].
          - right. intros [v [[] _]].
          - left. destruct E as [w [A B]]. exists w. split; [right; assumption|assumption].
          - destruct (in_dec Byte.byte_eq_dec x2c v) as [I|I]; [left; exists v; split; [left; reflexivity|assumption]|].
            right. intros [w [[<-|A] B]]; [contradiction|]. apply E. eauto. }
        destruct E as [E|E]; [left; destruct E as [v [A B]]; exists r, v; split; [left; reflexivity|auto]|].
        right. intros [r0 [v [[<-|A] B]]]; [apply E; eauto|]. apply IH. eauto. }
    destruct D as [D|D]; [assumption|]. exfalso. apply H. f_equal. apply K. intros r I. apply R. intros v J Q. apply D. eauto.
  - intros [r [v [A [B C]]]] E. injection E as E. apply (proj1 (R (fvals r)) (proj1 K E r A) v B C).
Qed.
Print Assumptions C32_changed_iff_comma.

(** A case for C31 and C32: two IPv4 networks, a value with a comma. *)
Definition demo_version := mkVersion 1 2 0 (str "20200101") [str "CN"] [].
Definition demo_row a m := mkNet [a; x00; x00; x00] (mask_bytes 4 m).
Definition demo_plain : HData :=
  mkH [str "country"; str "city"] demo_version
      [(demo_row x00 1, mkSlc 0 2); (demo_row x80 1, mkSlc 1 2)]
      [[str "A,B"; str "x"]; [str "C"; str "y"]].
Definition demo_marshal (v : VersionInfo) : bytes := str "{}".
Definition demo_unmarshal (b : bytes) : option (option VersionInfo) := if bytes_eqb b (str "{}") then Some (Some demo_version) else None.
Lemma lit_no c a : forallb (fun x => negb (byte_eqb x c)) a = true -> no_byte c a.
Proof. intros H I. rewrite forallb_forall in H. apply H in I. rewrite byte_eqb_refl in I. discriminate I. Qed.
Example C31_case : legal demo_plain /\
  scannable demo_marshal demo_unmarshal (str "2020-01-01 00:00:00") (contents demo_plain)
    [mkBlock v4base 31; mkBlock (v4base + 2 ^ 31) 31] /\
  (exists e rs, ParseRule (str "city,country") = Some e /\ means e rs /\ incl (eFields e) (hFields demo_plain)) /\
  (exists r v, In r (dIps (contents demo_plain)) /\ In v (fvals r) /\ In x2c v).
Proof.
  split; [repeat constructor; cbn; lia|]. split; [|split].
  - constructor; cbn [dVersion dFields dIps contents demo_plain hVersion hFields].
    + split; [apply one_line_lit; reflexivity|reflexivity].
    + reflexivity.
    + split; [apply one_line_lit; reflexivity|reflexivity].
    + split; [discriminate|]. split; [|reflexivity]. repeat constructor; (apply lit_no; reflexivity).
    + repeat constructor; cbn; try lia; reflexivity.
    + repeat constructor; cbn; try lia; try reflexivity; (apply lit_no; reflexivity).
  - destruct (ParseRule (str "city,country")) as [e|] eqn:E; [|discriminate E].
    destruct (C22_one_value_per_field _ _ E) as [rs [_ M]]. exists e, rs. split; [reflexivity|]. split; [assumption|].
    vm_compute in E. injection E as <-. intros f [<-|[<-|[]]]; vm_compute; auto.
  - eexists _, (str "A,B"). split; [left; reflexivity|]. split; [left; reflexivity|]. right. left. reflexivity.
Qed.


(** C31: a line of 64 KiB or more ends the dump silently: whatever follows it is
    ignored, as if the text stopped before that line (finding). *)
Theorem C31_long_line_truncates : forall unmarshal pre long post ept,
  Forall (no_byte x0a) (pre ++ long :: post) -> (65536 <= N.of_nat (length long))%N ->
  dump unmarshal (flat_map (fun l => l ++ [x0a]) (pre ++ long :: post)) ept =
  dump unmarshal (flat_map (fun l => l ++ [x0a]) pre) ept.
Proof.
  intros unmarshal pre long post ept F L. unfold dump, newDumper.
  change (flat_map (fun l => l ++ [x0a]) (pre ++ long :: post)) with (unlines (pre ++ long :: post)).
  change (flat_map (fun l => l ++ [x0a]) pre) with (unlines pre).
  assert (E : scan_lines (unlines (pre ++ long :: post)) = scan_lines (unlines pre)).
  { unfold scan_lines. rewrite !raw_lines_unlines by (assumption || (apply Forall_app in F; tauto)). f_equal.
    clear F. induction pre as [|l pre IH]; cbn [app until_long].
    - destruct (N.ltb_spec (N.of_nat (length long)) 65536); [lia|reflexivity].
    - destruct (_ <? _)%N; [f_equal; assumption|reflexivity]. }
  rewrite E. reflexivity.
Qed.
Print Assumptions C31_long_line_truncates.

(** C31: a text with fewer than two lines crashes the dump (finding). *)
Theorem C31_short_file_crashes : forall unmarshal data ept,
  no_byte x0a data -> dump unmarshal data ept = Panic.
Proof.
  intros unmarshal data ept H. unfold dump, newDumper, scan_lines, raw_lines. rewrite split_single by assumption.
  destruct data as [|c r]; [reflexivity|]. cbn [rev app until_long].
  destruct (N.ltb (N.of_nat (length (c :: r))) 65536); reflexivity.
Qed.
Print Assumptions C31_short_file_crashes.

(** C31: the header decides.  In a text of short lines the second must have five bytes and
    then the version, the third five bytes and then the columns: a shorter line crashes the
    dump, and so does the version null (findings); a version that is not JSON is an error;
    otherwise a text without rows gives an empty dataset with these columns. *)
Theorem C31_header : forall unmarshal l0 l1 rest ept,
  Forall (fun l => one_line l /\ short l) (l0 :: l1 :: rest) ->
  let text := flat_map (fun l => l ++ [x0a]) (l0 :: l1 :: rest) in
  (length l1 < 5 -> dump unmarshal text ept = Panic) /\
  (forall p j, l1 = p ++ j -> length p = 5 ->
     (unmarshal j = None -> dump unmarshal text ept = Err ErrJson) /\
     (unmarshal j = Some None -> dump unmarshal text ept = Panic) /\
     (forall v, unmarshal j = Some (Some v) ->
        (forall l2 r, rest = l2 :: r -> length l2 < 5 -> dump unmarshal text ept = Panic) /\
        (rest = [] -> dump unmarshal text ept = Ok (mkData (match ept with None => [] | Some e => eFields e end) v [])) /\
        (forall p2 c, rest = [p2 ++ c] -> length p2 = 5 ->
           dump unmarshal text ept = Ok (mkData (match ept with None => split x2c c | Some e => eFields e end) v [])))).
Proof.
  intros unmarshal l0 l1 rest ept F text.
  assert (E : scan_lines text = l0 :: l1 :: rest).
  { unfold text. change (flat_map (fun l => l ++ [x0a]) (l0 :: l1 :: rest)) with (unlines (l0 :: l1 :: rest)).
    unfold scan_lines. rewrite raw_lines_unlines by (eapply Forall_impl; [|exact F]; intros l [[A _] _]; exact A).
    generalize dependent (l0 :: l1 :: rest). clear. intros ls F. induction F as [|l ls [[A B] C] F IH]; [reflexivity|]. cbn [until_long].
    unfold short in C. destruct (N.ltb_spec (N.of_nat (length l)) 65536); [|lia]. cbn [map]. rewrite IH. f_equal.
    unfold trim_cr. destruct (rev l) as [|c r] eqn:Er; [reflexivity|].
    assert (In c l) by (rewrite in_rev, Er; left; reflexivity).
    destruct c; try reflexivity. exfalso. unfold no_byte in B. exact (B H0). }
  assert (D5 : forall p j, length p = 5 -> drop5 (p ++ j) = Ok j).
  { intros p j L. unfold drop5. rewrite app_length. destruct (Nat.ltb_spec (length p + length j) 5); [lia|]. rewrite skipn_app, <- L, skipn_all, Nat.sub_diag. reflexivity. }
  unfold dump, newDumper. rewrite E. split.
  - intros L. unfold drop5 at 1. destruct (Nat.ltb_spec (length l1) 5); [reflexivity|lia].
  - intros p j -> Lp. rewrite D5 by assumption. cbn [bind]. split; [intros ->; reflexivity|]. split.
    + intros ->. destruct rest as [|l2 r]; [reflexivity|]. unfold drop5. destruct (length l2 <? 5); reflexivity.
    + intros v ->. split; [|split].
      * intros l2 r -> L2. unfold drop5. destruct (Nat.ltb_spec (length l2) 5); [reflexivity|lia].
      * intros ->. destruct ept; reflexivity.
      * intros p2 c -> L2. rewrite D5 by assumption. destruct ept; reflexivity.
Qed.
Print Assumptions C31_header.

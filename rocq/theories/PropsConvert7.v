(** Property theorems C67: through the text format: pack into .scan, dump the text with a rule,
    pack into .ipdb, open, query. *)
From Verif Require Import Base NetIP IpNet Spec IpNetProofs SplitProofs IpNetProofs2 Inf Ipdb SpecIpdb SpecExport Export Bits.
From Verif Require Import TrieProofs WriterProofs ReaderProofs OpenProofs PackProofs PropsIpdb ExportProofs PropsExport.
From Verif Require Import Tables Operate SpecOperate NetText NetTextProofs SpecText PlainProofs PropsPlain.
From Verif Require OperateProofs2 PropsDump.
From Verif Require Import Json JsonProofs PropsJson.
From Verif Require Import Facade PropsFacade PropsFacade2 PropsFacade3 ConvertProofs FastOpen PropsConvert.
Open Scope nat_scope.

(** At most the last row ends its address family. *)
Definition last_ends (bs : list block) : Prop := forall n b, nth_error bs n = Some b -> ends_family b -> S n = length bs.

Lemma upto_all {A} : forall (bs : list block) (rows : list A) kept, last_ends bs -> length rows = length bs ->
  upto_end (combine rows bs) kept -> kept = combine rows bs.
Proof.
  induction bs as [|b bs IH]; intros [|a rows] kept LE L H; cbn [combine length] in *; try lia.
  - inversion H; reflexivity.
  - inversion H; subst.
    + assert (S 0 = length (b :: bs)) as X by (eapply LE; [reflexivity|assumption]). cbn [length] in X.
      destruct bs; [|cbn [length] in X; lia]. destruct rows; [reflexivity|cbn [length] in L; lia].
    + f_equal. apply IH; [|lia|assumption]. intros n c Hn Hc. specialize (LE (S n) c Hn Hc). cbn [length] in LE. lia.
Qed.

Lemma blanked_keeps fields row r row' (P : bytes -> Prop) : length row = length fields -> blanked fields row r row' -> P [] -> Forall P row -> Forall P row'.
Proof.
  intros L [Ln B] P0 F. apply Forall_forall. intros v I. apply In_nth_error in I as [i Hi].
  assert (i < length row') by (apply nth_error_Some; congruence).
  destruct (nth_error row i) as [w|] eqn:Ew; [|apply nth_error_None in Ew; lia].
  destruct (nth_error fields i) as [f|] eqn:Ef; [|apply nth_error_None in Ef; lia].
  specialize (B i f w Ef Ew). rewrite Hi in B. injection B as ->. destruct (in_array f (rkeep r)); [|assumption].
  rewrite Forall_forall in F. apply F. eapply nth_error_In; eassumption.
Qed.
Lemma apply_keeps fields rs row out (P : bytes -> Prop) : apply_rules fields rs row out -> length row = length fields -> P [] -> Forall P row -> Forall P out.
Proof.
  induction 1 as [row|r rs row out N A IH|r rs row row' out Hd B A IH]; intros L P0 F; [assumption|auto|].
  apply IH; [destruct B as [-> _]; assumption|assumption|]. eapply blanked_keeps; eassumption.
Qed.
Lemma no_byte_nil c : no_byte c []. Proof. intros []. Qed.
Lemma column_keeps (P : bytes -> Prop) names fields row : P [] -> Forall P row -> P (column names fields row).
Proof.
  intros P0 F. unfold column. set (l := map snd _). assert (Forall P l) as Fl.
  { apply Forall_map, Forall_forall. intros [f v] I. apply filter_In in I as [I _]. apply in_combine_r in I. rewrite Forall_forall in F. auto. }
  clearbody l. destruct l as [|x l]; [assumption|].
  destruct (exists_last (l := x :: l) ltac:(discriminate)) as [l' [y E]]. rewrite E, last_last. rewrite E in Fl. apply Forall_app in Fl as [_ Fl]. inversion Fl; assumption.
Qed.
Lemma underscored_tab v : no_byte x09 v -> no_byte x09 (underscored v).
Proof.
  intros N I. unfold underscored in I. apply in_map_iff in I as (c & E & I). destruct (byte_eqb c x2c); [discriminate|]. subst. exact (N I).
Qed.

(** What a rule shows of a row is no longer than the row. *)
Fixpoint total (l : list bytes) : nat := match l with [] => 0 | v :: r => length v + total r end.
Lemma join_total sep l : l <> [] -> length (join sep l) + 1 = total l + length l.
Proof.
  induction l as [|a l IH]; intros H; [congruence|]. destruct l as [|b l]; [cbn; lia|].
  assert (b :: l <> []) as N by discriminate. specialize (IH N). change (join sep (a :: b :: l)) with (a ++ sep :: join sep (b :: l)).
  rewrite app_length. cbn [length total] in *. lia.
Qed.
Lemma column_cons f g v fields vs : length (column [f] (g :: fields) (v :: vs)) <= (if bytes_eqb g f then length v else 0) + length (column [f] fields vs).
Proof.
  unfold column. cbn [combine filter fst]. unfold in_array. cbn [existsb]. rewrite orb_false_r. rewrite ?(PropsFacade.bytes_eqb_sym' f g).
  destruct (bytes_eqb g f); [|lia]. cbn [map snd]. set (l := map snd _). destruct l as [|x l]; [cbn; lia|].
  change (last (v :: x :: l) []) with (last (x :: l) []). lia.
Qed.
Lemma one_share g (v : bytes) fs : NoDup fs -> total (map (fun f => if bytes_eqb g f then v else []) fs) <= length v.
Proof.
  induction 1 as [|f fs N H IH]; [cbn; lia|]. cbn [map total]. destruct (bytes_eqb_spec g f) as [->|]; [|cbn [length]; lia].
  assert (total (map (fun f0 => if bytes_eqb f f0 then v else []) fs) = 0) as ->; [|lia].
  clear - N. induction fs as [|x fs IH]; [reflexivity|]. cbn [map total]. destruct (bytes_eqb_spec f x) as [->|]; [exfalso; apply N; now left|].
  cbn [length]. apply IH. intros I. apply N. now right.
Qed.
Lemma total_add fs (a b : bytes -> bytes) (c : bytes -> bytes) : (forall f, length (c f) <= length (a f) + length (b f)) ->
  total (map c fs) <= total (map a fs) + total (map b fs).
Proof. intros H. induction fs as [|f fs IH]; [cbn; lia|]. cbn [map total]. specialize (H f). lia. Qed.
Lemma columns_total fs fields vs : NoDup fs -> total (map (fun f => column [f] fields vs) fs) <= total vs.
Proof.
  intros N. revert vs. induction fields as [|g fields IH]; intros vs.
  - assert (total (map (fun f => column [f] [] vs) fs) = 0) as ->; [|lia]. clear. induction fs; [reflexivity|cbn [map total]]. rewrite IHfs. reflexivity.
  - destruct vs as [|v vs].
    + assert (total (map (fun f => column [f] (g :: fields) []) fs) = 0) as ->; [|lia]. clear. induction fs; [reflexivity|cbn [map total]]. rewrite IHfs. reflexivity.
    + etransitivity; [apply (total_add fs (fun f => if bytes_eqb g f then v else []) (fun f => column [f] fields vs))|].
      { intros f. etransitivity; [apply column_cons|]. destruct (bytes_eqb g f); reflexivity. }
      cbn [total]. pose proof (one_share g v fs N). specialize (IH vs). lia.
Qed.
Lemma blanked_total fields row r row' : length row = length fields -> blanked fields row r row' -> total row' <= total row.
Proof.
  intros L [Ln B]. revert fields row' L Ln B. induction row as [|v row IH]; intros [|f fields] [|v' row'] L Ln B; cbn [length total] in *; try lia.
  pose proof (B 0 f v eq_refl eq_refl) as B0. cbn [nth_error] in B0.
  assert (length v' <= length v) by (destruct (in_array f (rkeep r)); injection B0 as ->; cbn [length]; lia).
  assert (total row' <= total row); [|lia]. apply (IH fields); [lia|lia|]. intros i f0 v0 H1 H2. exact (B (S i) f0 v0 H1 H2).
Qed.
Lemma apply_total fields rs row out : apply_rules fields rs row out -> length row = length fields -> total out <= total row.
Proof.
  induction 1 as [row|r rs row out N A IH|r rs row row' out Hd B A IH]; intros L; [lia|auto|].
  pose proof (blanked_total _ _ _ _ L B). destruct B as [Lb _]. assert (total out <= total row') by (apply IH; lia). lia.
Qed.
Lemma total_underscored vs : total (map underscored vs) = total vs.
Proof. induction vs as [|v vs IH]; [reflexivity|]. cbn [map total]. unfold underscored at 1. rewrite map_length, IH. reflexivity. Qed.
Lemma out_short (hf fields : list bytes) rs (vals out : list bytes) : NoDup fields -> incl fields hf -> length vals = length hf -> fields <> [] ->
  length out = length fields -> short (join x2c vals) ->
  apply_rules fields rs (map (fun f => column [f] hf (map underscored vals)) fields) out -> (N.of_nat (length (join x09 out)) < 65536)%N.
Proof.
  intros ND I L NE Lo Sh A. apply apply_total in A; [|apply map_length]. pose proof (columns_total fields hf (map underscored vals) ND) as T. rewrite total_underscored in T.
  pose proof (NoDup_incl_length ND I) as Ln. unfold short in Sh.
  assert (out <> []) as NO by (destruct out; [destruct fields; [congruence|discriminate Lo]|discriminate]).
  assert (vals <> []) as NV by (intros ->; destruct hf; [|discriminate L]; destruct fields; [congruence|cbn in Ln; lia]).
  pose proof (join_total x09 out NO). pose proof (join_total x2c vals NV). lia.
Qed.

(** The text that stands for a dataset, and the dataset that a rule makes of it. *)
Theorem C67_text : forall E d bs file fields rs,
  legal d -> scannable (jVer E) (jUnVer E) (eClock E) (contents d) bs -> disjoint bs -> last_ends bs -> Forall (fun b => (logsz b < 128)%N) bs ->
  path_ext file = str ".scan" ->
  fields <> [] -> Forall (no_bytes (str "|,")) fields -> NoDup fields -> incl fields (hFields d) -> plain_columns fields ->
  Forall rule_ok rs -> show_rules fields rs <> [] ->
  exists text d1 d2, PackBytes (converterFormats E) (str ".scan") d = Ok (text, d1) /\
    DumpFile (converterFormats E) file (Some text) (show_rules fields rs) [] = Ok d2 /\
    hFields d2 = fields /\ hVersion d2 = hVersion d /\
    (json_ok (jMeta E) (jUnMeta E) (eNow E) (mkData fields (hVersion d) []) -> forall ipList,
     exists data, PackBytes (converterFormats E) (str ".ipdb") d2 = Ok (data, d2) /\
       ((Z.of_nat (length data) < 2 ^ 32)%Z ->
        exists q, NewDbFromBytes (serverFormats E) ipList (str ".ipdb") data = Ok q /\
          (forall i row b ip, nth_error (dIps (contents d)) i = Some row -> nth_error bs i = Some b ->
             valid_ip ip -> in_block b (addr ip) -> holds_family (vIpType (hVersion d)) (addr ip) = true ->
             exists out, apply_rules fields (filter (in_force fields) rs)
                 (map (fun f => column [f] (hFields d) (map underscored (fvals row))) fields) out /\
               QueryStr q (ip_string ip) = Ok (Some (row_info fields out), prefix_len (addr ip) b, None)) /\
          (forall ip, valid_ip ip -> (forall b, In b bs -> ~ in_block b (addr ip)) -> 2 <= length fields ->
             QueryStr q (ip_string ip) = Ok (None, 0, Some ErrDatabaseError)))).
Proof.
  intros E d bs file fields rs HL HS HD HE HZ Hp F1 F2 F3 F4 F5 HR HN.
  destruct (C23_documented_syntax fields rs F1 F2 HR HN) as (e & PR & EF & ME).
  destruct (C31_roundtrip (jVer E) (jUnVer E) (eClock E) d bs e _ HL HS ME) as (out & kept & D & Of & Ov & U & Rw); [rewrite EF; assumption|].
  set (text := fst (Plain.pack (jVer E) (eClock E) d)) in *. exists text, (snd (Plain.pack (jVer E) (eClock E) d)), (fresh (fun _ => 0) out).
  destruct (fresh_spec (fun _ => 0) out) as (EC & _ & _).
  assert (hFields (fresh (fun _ => 0) out) = fields) as HF by (change (dFields (contents (fresh (fun _ => 0) out)) = fields); rewrite EC, Of; exact EF).
  assert (hVersion (fresh (fun _ => 0) out) = hVersion d) as HV by (change (dVersion (contents (fresh (fun _ => 0) out)) = hVersion d); rewrite EC, Ov; reflexivity).
  split. { unfold text. change (PackBytes (converterFormats E) (str ".scan") d) with (Ok (Plain.pack (jVer E) (eClock E) d)). destruct (Plain.pack _ _ d); reflexivity. }
  split.
  { unfold DumpFile. rewrite Hp.
    change (GetDumpFormat (converterFormats E) (str ".scan")) with (Some (fun data ept => fresh_of (fun _ => 0) (Plain.dump (jUnVer E) data ept))).
    cbv beta iota. rewrite PR, D. reflexivity. }
  split; [exact HF|]. split; [exact HV|]. intros HJ il.
  pose proof (sc_nets _ _ _ _ _ HS) as Nets. pose proof (Forall2_length Nets) as Ln.
  apply (upto_all bs (dIps (contents d)) kept HE Ln) in U. subst kept.
  assert (Forall (fun rb => In (fst rb) (dIps (contents d)) /\ aligned (snd rb) /\ (logsz (snd rb) < 128)%N) (combine (dIps (contents d)) bs)) as FA.
  { clear - Nets HZ. set (P := fun rb : IpRaw * block => In (fst rb) (dIps (contents d)) /\ aligned (snd rb) /\ (logsz (snd rb) < 128)%N).
    assert (forall l bs, incl l (dIps (contents d)) -> Forall (fun b => (logsz b < 128)%N) bs -> Forall2 (fun r b => net_is (cidr r) b /\ aligned b) l bs -> Forall P (combine l bs)) as G.
    { intros l bs' I FZ F. induction F as [|r b rows bs' [N A] F IH]; [constructor|]. apply Forall_cons_iff in FZ as [Z1 FZ]. constructor; [split; [apply I; now left|split; assumption]|]. apply IH; [|assumption]. intros x Hx. apply I. now right. }
    apply G; [apply incl_refl|assumption|assumption]. }
  assert (Forall2 row_ok (dIps out) bs) as RO.
  { assert (forall kept rows', Forall (fun rb => In (fst rb) (dIps (contents d)) /\ aligned (snd rb) /\ (logsz (snd rb) < 128)%N) kept -> Forall2 (fun rb r' => net_is (cidr r') (snd rb) /\ length (fvals r') = length (eFields e) /\
        (NoDup (eFields e) -> apply_rules (eFields e) (filter (in_force fields) rs)
           (map (fun f => column [f] (hFields d) (map underscored (fvals (fst rb)))) (eFields e)) (fvals r'))) kept rows' -> Forall2 row_ok rows' (map snd kept)) as G.
    { intros kp rows' Fk FR. induction FR as [|[r b] r' kp rows' (N & Lr & Ap) FR IH]; [constructor|].
      apply Forall_cons_iff in Fk as [(Ir & Ab & Zb) Fk']. cbn [map fst snd] in *. constructor; [|apply IH; assumption].
      rewrite EF in *. constructor.
      - constructor; assumption.
      - intros X. rewrite X in Lr. destruct fields; [congruence|discriminate Lr].
      - eapply apply_keeps; [apply Ap; assumption|rewrite map_length; reflexivity|apply no_byte_nil|].
        apply Forall_map, Forall_forall. intros f _. apply column_keeps; [apply no_byte_nil|]. apply Forall_map.
        pose proof (sc_values _ _ _ _ _ HS) as SV. rewrite Forall_forall in SV. destruct (SV r Ir) as (_ & Tv & _).
        eapply Forall_impl; [|exact Tv]. intros v [Nv _]. apply underscored_tab. exact Nv.
      - pose proof (sc_values _ _ _ _ _ HS) as SV. rewrite Forall_forall in SV. destruct (SV r Ir) as (Lv & _ & Sh).
        eapply out_short; [exact F3|exact F4|exact Lv|exact F1|exact Lr|exact Sh|apply Ap; exact F3]. }
    specialize (G _ _ FA Rw). replace (map snd (combine (dIps (contents d)) bs)) with bs in G; [exact G|].
    clear - Ln. revert Ln. generalize (dIps (contents d)) as l. induction bs as [|b bs IH]; intros [|x l] L; cbn [length combine map snd] in *; try lia; [reflexivity|]. f_equal. apply IH. lia. }
  destruct (C47_packed E (fresh (fun _ => 0) out) bs il) as (data & P & Q); try (rewrite ?EC, ?HF; assumption).
  { rewrite EC. clear - HJ Of Ov EF. intros nodes size H1 H2. specialize (HJ nodes size H1 H2). unfold meta_of in *. cbn [dFields dVersion] in HJ. rewrite Of, Ov, EF. exact HJ. }
  exists data. split; [exact P|]. intros Hs. destruct (Q Hs) as (q & O & Q1 & Q2). exists q. split; [exact O|]. rewrite EC, HF, HV in *. split.
  - intros i row b ip Hi Hb V Bi Hf.
    assert (exists r', nth_error (dIps out) i = Some r' /\ length (fvals r') = length fields /\
      apply_rules fields (filter (in_force fields) rs) (map (fun f => column [f] (hFields d) (map underscored (fvals row))) fields) (fvals r')) as (r' & Hr' & Lr & Ap).
    { assert (nth_error (combine (dIps (contents d)) bs) i = Some (row, b)) as Hc.
      { clear - Hi Hb. revert Hi Hb. generalize (dIps (contents d)) as l. revert i. induction bs as [|c bs IH]; intros [|i] [|x l] Hi Hb; cbn in *; try discriminate; [congruence|auto]. }
      clear - Rw Hc EF F3. revert i Hc. induction Rw as [|rb r' kp rows' (N & Lr & Ap) FR IH]; intros [|i] Hc; cbn in *; try discriminate.
      - injection Hc as ->. exists r'. rewrite EF in *. split; [reflexivity|]. split; [assumption|]. apply Ap. assumption.
      - apply IH. exact Hc. }
    exists (fvals r'). split; [exact Ap|]. apply (Q1 i r' b ip); try assumption. lia.
  - intros ip V N L2. apply Q2; assumption.
Qed.
Print Assumptions C67_text.

(* ------------------------------------------------------------------ *)
(** A database file through the text format: the texts of the answers with underscores for
    commas. *)
Definition info_map (g : bytes -> bytes) (i : IpInfo) : IpInfo :=
  mkInfo (g (iCountry i)) (g (iDistrict i)) (g (iProvince i)) (g (iCity i)) (g (iAsn i)) (g (iIsp i)) (g (iContinent i)) (g (iLine i)).

Lemma column_map (g : bytes -> bytes) names fields (vs : list bytes) : g [] = [] -> column names fields (map g vs) = g (column names fields vs).
Proof.
  intros G. unfold column.
  assert (map snd (filter (fun fv : bytes * bytes => in_array (fst fv) names) (combine fields (map g vs))) = map g (map snd (filter (fun fv : bytes * bytes => in_array (fst fv) names) (combine fields vs)))) as ->.
  { revert vs. induction fields as [|f fields IH]; intros [|v vs]; cbn [map combine filter fst]; try reflexivity.
    destruct (in_array f names); cbn [map snd]; rewrite IH; reflexivity. }
  set (l := map snd _). clearbody l. induction l as [|x l IH]; [symmetry; exact G|]. destruct l as [|y l]; [reflexivity|exact IH].
Qed.
Lemma underscored_code v : continent_name v = v -> continent_name (underscored v) = underscored v.
Proof.
  intros H. unfold continent_name. destruct (assoc (underscored v) continents) as [n|] eqn:A; [|reflexivity]. exfalso.
  assert (forall c, no_byte x5f c -> underscored v = c -> v = c) as U.
  { clear. intros c N E. subst c. unfold underscored in *. induction v as [|b v IH]; [reflexivity|]. cbn [map] in *.
    destruct (byte_eqb b x2c) eqn:Eb; [exfalso; apply N; now left|]. f_equal. apply IH. intros I. apply N. now right. }
  apply OperateProofs2.assoc_In in A. cbn [continents In] in A.
  repeat (destruct A as [A|A]; [injection A as A1 A2; symmetry in A1; apply U in A1; [subst v; vm_compute in H; discriminate H|intros I; cbn in I; intuition discriminate]|]).
  destruct A.
Qed.
Lemma underscored_continent fields row : show_continent fields row = row -> show_continent fields (map underscored row) = map underscored row.
Proof.
  revert row. induction fields as [|f fields IH]; intros [|v row]; cbn [map show_continent]; try reflexivity.
  destruct (in_array f _); intros H.
  - injection H as H. rewrite underscored_code by assumption. reflexivity.
  - injection H as H. rewrite IH by assumption. reflexivity.
Qed.
Lemma underscored_info fields row : show_continent fields row = row ->
  row_info fields (map underscored row) = info_map underscored (row_info fields row).
Proof.
  intros H. unfold row_info. rewrite (underscored_continent _ _ H), H. unfold info_map. cbn [iCountry iDistrict iProvince iCity iAsn iIsp iContinent iLine].
  f_equal; apply column_map; reflexivity.
Qed.
Lemma dump_continent r ret : shows r ret -> NoDup (dump_fields r) -> show_continent (dump_fields r) (dump_row r ret) = dump_row r ret.
Proof.
  intros [Sl St Sc] ND. unfold dump_row. set (mf := mFields (rMeta r)) in *. set (fv := field_value CommonFieldsMap (field_map mf ret)).
  apply show_continent_id. intros x Ix Hx. apply ExtKeys_common in Ix as (g & Ig & Im).
  destruct (common_name (str "continent") (str "continent_code") x g ltac:(in_common) Ig Hx) as [-> ->].
  unfold fv. rewrite (field_value_colc _ _ _ _ Ig).
  change (mFields (rMeta r)) with mf in Im. destruct (offset_of_in _ _ Im) as [i Ei]. pose proof (offset_of_nth _ _ _ Ei) as Ni.
  assert (i < length mf)%nat as Li by (apply nth_error_Some; congruence).
  destruct (nth_error ret i) as [v|] eqn:Ev; [|apply nth_error_None in Ev; fold mf in Sl; lia].
  rewrite (colc_at _ _ _ i v); [|intros j Hj; eapply flat_map_dup; eassumption|assumption|assumption].
  apply (Sc i v Ei Ev).
Qed.
Lemma columns_self fields vs : NoDup fields -> length vs = length fields -> map (fun f => column [f] fields vs) fields = vs.
Proof.
  intros N. revert vs. induction N as [|f fields Nf N IH]; intros [|v vs] L; cbn [length] in L; try discriminate; [reflexivity|]. cbn [map].
  assert (forall x, ~ In x fields -> forall ws, column [x] fields ws = []) as Z.
  { clear. intros x Nx ws. unfold column. assert (filter (fun fv : bytes * bytes => in_array (fst fv) [x]) (combine fields ws) = []) as ->; [|reflexivity].
    revert ws. induction fields as [|f fields IH]; intros [|w ws]; try reflexivity. cbn [combine filter fst]. unfold in_array at 1. cbn [existsb]. rewrite orb_false_r.
    destruct (bytes_eqb_spec f x) as [->|Ne]; [exfalso; apply Nx; now left|]. try (destruct (bytes_eqb_spec x f) as [<-|]; [congruence|]).
    apply IH. intros I. apply Nx. now right. }
  assert (forall x ws, column [x] (f :: fields) (v :: ws) = if bytes_eqb f x then last (v :: map snd (filter (fun fv : bytes * bytes => in_array (fst fv) [x]) (combine fields ws))) [] else column [x] fields ws) as C.
  { intros x ws. unfold column. cbn [combine filter fst]. unfold in_array at 1. cbn [existsb]. rewrite orb_false_r, ?(PropsFacade.bytes_eqb_sym' x f). destruct (bytes_eqb f x); reflexivity. }
  f_equal.
  - rewrite C, bytes_eqb_refl. specialize (Z f Nf vs). unfold column in Z. destruct (map snd (filter _ _)) as [|y l] eqn:E; [reflexivity|]. exfalso.
    assert (forall fs ws, ~ In f fs -> filter (fun fv : bytes * bytes => in_array (fst fv) [f]) (combine fs ws) = []) as Z2.
    { clear. induction fs as [|g fs IH]; intros [|w ws] I; try reflexivity. cbn [combine filter fst]. unfold in_array at 1. cbn [existsb]. rewrite orb_false_r, ?(PropsFacade.bytes_eqb_sym' f g).
      destruct (bytes_eqb_spec g f) as [->|Ne]; [exfalso; apply I; now left|]. apply IH. intros J. apply I. now right. }
    rewrite Z2 in E by assumption. discriminate E.
  - etransitivity; [|apply (IH vs); lia]. apply map_ext_in. intros x Ix. rewrite C. destruct (bytes_eqb_spec f x) as [->|]; [contradiction|reflexivity].
Qed.

Lemma tiles_last s bs e (fam : block -> Prop) : tiles s bs e -> Forall fam bs -> (forall b, fam b -> ends_family b -> (e <= base b + 2 ^ logsz b)%N) -> last_ends bs.
Proof.
  intros T F H. revert s T F. induction bs as [|b bs IH]; intros s T F n c Hn Hc; [destruct n; discriminate Hn|].
  destruct T as (Hb & Ab & T). apply Forall_cons_iff in F as [Fb F]. destruct n as [|n]; cbn [nth_error] in Hn.
  - injection Hn as ->. specialize (H c Fb Hc). destruct bs as [|b' bs]; [reflexivity|]. destruct T as (Hb' & _ & T'). apply tiles_le in T'.
    pose proof (N.pow_nonzero 2 (logsz b') ltac:(discriminate)). lia.
  - cbn [length]. f_equal. eapply IH; eassumption.
Qed.
Lemma dump_field_text r f : In f (dump_fields r) -> no_bytes (str "|,") f /\ one_line f /\ f <> [] /\ length f <= 16 /\ In f (map fst CommonFieldsMap).
Proof.
  intros I. apply ExtKeys_common in I as (g & I & _). unfold CommonFieldsMap in I. cbn [In] in I.
  repeat (destruct I as [I|I]; [injection I as <- _; repeat split; try discriminate; try (vm_compute; lia);
    [repeat constructor; intros J; cbn in J; intuition discriminate|intros J; cbn in J; intuition discriminate|intros J; cbn in J; intuition discriminate|cbn; auto 20]|]).
  destruct I.
Qed.
Lemma total_bound k l : Forall (fun f : bytes => length f <= k) l -> total l <= k * length l.
Proof. induction 1; cbn [total length]; lia. Qed.

Theorem C67_copy : forall E file file2 data d ipList1 ipList2 q1,
  path_ext file = str ".ipdb" -> DumpFile (converterFormats E) file (Some data) [] [] = Ok d ->
  NewDbFromBytes (serverFormats E) ipList1 (str ".ipdb") data = Ok q1 ->
  NoDup (hFields d) -> hFields d <> [] -> path_ext file2 = str ".scan" ->
  one_line (eClock E) -> short (eClock E) ->
  jUnVer E (jVer E (hVersion d)) = Some (Some (hVersion d)) -> one_line (jVer E (hVersion d)) -> short (jVer E (hVersion d)) ->
  (forall row, In row (dIps (contents d)) -> Forall one_line (fvals row) /\ short (join x2c (fvals row))) ->
  json_ok (jMeta E) (jUnMeta E) (eNow E) (contents d) ->
  exists text d1 d2 data2, PackBytes (converterFormats E) (str ".scan") d = Ok (text, d1) /\
    DumpFile (converterFormats E) file2 (Some text) (join x2c (hFields d)) [] = Ok d2 /\
    PackBytes (converterFormats E) (str ".ipdb") d2 = Ok (data2, d2) /\
    ((Z.of_nat (length data2) < 2 ^ 32)%Z ->
     exists q2, NewDbFromBytes (serverFormats E) ipList2 (str ".ipdb") data2 = Ok q2 /\
       forall ip, valid_ip ip -> dumped_family (vIpType (hVersion d)) (addr ip) ->
         exists i m, QueryStr q1 (ip_string ip) = Ok (Some i, m, None) /\
                     QueryStr q2 (ip_string ip) = Ok (Some (info_map underscored i), m, None)).
Proof.
  intros E file file2 data d il1 il2 q1 Hp HD HQ HN HF Hp2 C1 C2 J1 J2 J3 HV HJ.
  destruct (dumped _ _ _ _ Hp HD) as (d0 & D0 & ->). destruct (fresh_spec (eGrow E) d0) as (EC & Lg & _).
  destruct (open_query _ _ _ _ HQ) as (r & c & _ & O & T).
  destruct (dump_rows _ _ _ _ D0) as (r' & bs & O' & Ef & Ev & Ti & F2).
  rewrite O in O'. injection O' as <-. set (d := fresh (eGrow E) d0) in *.
  assert (EF : hFields d = dump_fields r) by (change (dFields (contents d) = dump_fields r); rewrite EC; exact Ef).
  assert (EV : vIpType (hVersion d) = IpType (rMeta r)) by (change (vIpType (dVersion (contents d)) = IpType (rMeta r)); rewrite EC, Ev; reflexivity).
  assert (FL : forall row, In row (dIps d0) -> exists ret, shows r ret /\ fvals row = dump_row r ret).
  { intros row I. clear - F2 I. induction F2 as [|row' b rows bs [_ _ _ _ (ret & Sh & Er & _)] F2 IH]; [destruct I|]. destruct I as [->|I]; [eauto|auto]. }
  assert (FT : Forall (fun f => no_bytes (str "|,") f /\ one_line f /\ f <> [] /\ length f <= 16 /\ In f (map fst CommonFieldsMap)) (hFields d)).
  { rewrite EF. apply Forall_forall. intros f. apply dump_field_text. }
  assert (scannable (jVer E) (jUnVer E) (eClock E) (contents d) bs) as HS.
  { constructor; try (split; assumption); [exact J1| | |].
    - split; [exact HF|]. split.
      + change (dFields (contents d)) with (hFields d). eapply Forall_impl; [|exact FT]. intros f (N & O1 & _). split; [|assumption].
        unfold no_bytes in N. apply Forall_cons_iff in N as [_ N]. apply Forall_cons_iff in N as [N _]. exact N.
      + change (dFields (contents d)) with (hFields d). unfold short. pose proof (join_total x2c (hFields d) HF) as JT.
        assert (total (hFields d) <= 16 * length (hFields d)) by (apply total_bound; eapply Forall_impl; [|exact FT]; intros f (_ & _ & _ & L & _); exact L).
        assert (length (hFields d) <= length (map fst CommonFieldsMap)) as LC.
        { apply NoDup_incl_length; [assumption|]. intros f I. rewrite Forall_forall in FT. apply FT. assumption. }
        cbn [map length CommonFieldsMap] in LC. lia.
    - rewrite EC. clear - F2. induction F2 as [|row b rows bs [H1 H2 _ _ _] F2 IH]; constructor; [split; assumption|assumption].
    - rewrite EC in *. apply Forall_forall. intros row I. destruct (FL row I) as (ret & Sh & Er). destruct (HV row I) as [V1 V2].
      split; [rewrite Er; unfold dump_row; rewrite map_length, Ef; reflexivity|]. split; [|assumption].
      pose proof (dump_row_tab r ret Sh) as Tb. rewrite <- Er in Tb. rewrite Forall_forall in *. intros v Iv. split; auto. }
  assert (last_ends bs) as HE.
  { eapply (tiles_last _ _ _ (fun b => v4b (base b) = negb (IpType (rMeta r) =? 2)%Z)); [exact Ti| |].
    - clear - F2. induction F2 as [|row b rows bs [_ _ _ H _] F2 IH]; constructor; assumption.
    - intros b Fb. unfold ends_family, dump_family. destruct (Z.eqb_spec (IpType (rMeta r)) 2) as [E2|E2]; cbn [negb] in Fb; cbn [fam_end fam4 fam6].
      + intros [[I4 _]|H]; [|rewrite H; apply N.le_refl]. apply PropsDump.v4b_iff in I4. congruence.
      + intros [[_ H]|H]; rewrite H; vm_compute; discriminate. }
  assert (Forall (fun b => (logsz b < 128)%N) bs) as HZ by (clear - F2; induction F2 as [|row b rows bs [_ _ H _ _] F2 IH]; constructor; assumption).
  destruct (C67_text E d bs file2 (hFields d) [] Lg HS (tiles_disjoint _ _ _ Ti) HE HZ Hp2) as (text & d1 & d2 & P1 & P2 & P3 & P4 & P5).
  { exact HF. }
  { eapply Forall_impl; [|exact FT]. intros f (N & _). exact N. }
  { exact HN. } { apply incl_refl. } { rewrite EF. apply dump_plain. } { constructor. }
  { cbn [show_rules map join]. clear - FT HF. destruct (hFields d) as [|f fs]; [congruence|]. apply Forall_cons_iff in FT as [(_ & _ & Nf & _) _]. destruct f as [|b f]; [congruence|].
    destruct fs; discriminate. }
  destruct (P5 HJ il2) as (data2 & P6 & P7). exists text, d1, d2, data2. split; [exact P1|]. split; [exact P2|]. split; [exact P6|].
  intros Hs. destruct (P7 Hs) as (q2 & P8 & P9 & _). exists q2. split; [exact P8|].
  intros ip V Fm. rewrite EV in Fm.
  destruct (tiles_nth _ _ _ (addr ip) Ti) as (i & b & Hb & Bi).
  { apply dumped_family_range; [apply addr_bound; assumption|assumption]. }
  destruct (nth_error (dIps d0) i) as [row|] eqn:Hr.
  2:{ apply nth_error_None in Hr. assert (nth_error bs i <> None) as Nn by congruence. apply nth_error_Some in Nn.
      pose proof (Forall2_length F2). lia. }
  assert (dumped_row r row b) as [D1 D2 D3 _ (ret & Sh & Er & G)].
  { clear - F2 Hb Hr. revert i Hb Hr. induction F2 as [|? ? ? ? H F2 IH]; intros [|i] Hb Hr; cbn in *; try discriminate; [congruence|eauto]. }
  exists (make_info (mFields (rMeta r)) ret), (prefix_len (addr ip) b). split.
  { rewrite C47_str by assumption. rewrite T. rewrite G by assumption. reflexivity. }
  destruct (P9 i row b ip) as (out & Ap & Q2); [rewrite EC; assumption|assumption|assumption|assumption|rewrite EV; apply dumped_family_holds; assumption|].
  assert (forall fs x y, apply_rules fs [] x y -> y = x) as AN by (clear; intros fs x y H; inversion H; reflexivity).
  cbn [filter] in Ap. apply AN in Ap. rewrite Ap, columns_self in Q2.
  - rewrite Q2. do 3 f_equal. rewrite EF, Er, underscored_info; [|apply dump_continent; [assumption|rewrite <- EF; assumption]].
    rewrite dump_row_info; [reflexivity|assumption|rewrite <- EF; assumption].
  - assumption.
  - rewrite map_length, EF, Er. unfold dump_row. rewrite map_length. reflexivity.
Qed.
Print Assumptions C67_copy.

(* ------------------------------------------------------------------ *)
(** Cases: commas in the values, and a rule that blanks. *)
Definition comma_ipd : IpData := mkData [str "country"; str "continent_code"; str "asn"] (mkVersion 1 0 0 (str "v1") [] [])
  [ mkRaw (mkNet [x00; x00; x00; x00] [x80; x00; x00; x00]) [str "CN"; str "AS"; str "1,2"];
    mkRaw (mkNet [x80; x00; x00; x00] [x80; x00; x00; x00]) [str "U,S"; str "NA"; str "2"] ].
Definition comma_blocks : list block := [mkBlock v4base 31; mkBlock (v4base + 2 ^ 31)%N 31].
Definition comma_data : HData := fresh (fun _ => 1) (mkData [str "country"; str "continent"; str "asn"] (mkVersion 1 97 0 (str "v1") [str "CN"] [])
  [ mkRaw (mkNet [x00; x00; x00; x00] [x80; x00; x00; x00]) [str "CN"; str "亚洲"; str "1,2"];
    mkRaw (mkNet [x80; x00; x00; x00] [x80; x00; x00; x00]) [str "U,S"; str "北美洲"; str "2"] ]).
Example C67_copy_case : exists q1, NewDbFromBytes (serverFormats case_env) [] (str ".ipdb") (packed_file comma_ipd) = Ok q1 /\
  DumpFile (converterFormats case_env) (str "a.ipdb") (Some (packed_file comma_ipd)) [] [] = Ok comma_data /\
  path_ext (str "a.ipdb") = str ".ipdb" /\ path_ext (str "a.scan") = str ".scan" /\
  NoDup (hFields comma_data) /\ hFields comma_data <> [] /\ one_line (eClock case_env) /\ short (eClock case_env) /\
  jUnVer case_env (jVer case_env (hVersion comma_data)) = Some (Some (hVersion comma_data)) /\
  one_line (jVer case_env (hVersion comma_data)) /\ short (jVer case_env (hVersion comma_data)) /\
  (forall row, In row (dIps (contents comma_data)) -> Forall one_line (fvals row) /\ short (join x2c (fvals row))) /\
  json_ok (jMeta case_env) (jUnMeta case_env) (eNow case_env) (contents comma_data) /\
  exists row v, In row (dIps (contents comma_data)) /\ In v (fvals row) /\ underscored v <> v.
Proof.
  assert (Forall2 row_ok (dIps comma_ipd) comma_blocks) as H1 by (constructor; [row_ok_solve|]; constructor; [row_ok_solve|]; constructor).
  assert (disjoint comma_blocks) as H2 by (apply disjointb_ok; vm_compute; reflexivity).
  assert (plain_columns (dFields comma_ipd)) as H3 by (intros f [<-|[<-|[<-|[]]]] N H; try (apply N; reflexivity); vm_compute in H; discriminate H).
  assert (json_ok (jMeta case_env) (jUnMeta case_env) (eNow case_env) comma_ipd) as H5.
  { apply C54_json_ok; [|unfold int64; cbn; lia]. constructor; cbn [comma_ipd dFields dVersion vVersion vExtra]; [repeat (constructor; [ascii|]); constructor|ascii|constructor]. }
  assert (Z.of_nat (length (packed_file comma_ipd)) < 2 ^ 32)%Z as HS by (vm_compute; reflexivity).
  destruct (case_opens comma_ipd comma_blocks [] H1 H2 H3 ltac:(discriminate) H5 HS) as (q & O & _ & Du).
  exists q. split; [exact O|]. split; [rewrite Du by reflexivity; vm_compute; reflexivity|]. split; [reflexivity|]. split; [reflexivity|].
  split; [repeat constructor; cbn; intuition discriminate|]. split; [discriminate|]. split; [split; intros []|]. split; [reflexivity|].
  split; [vm_compute; reflexivity|]. split; [apply one_line_lit; vm_compute; reflexivity|]. split; [vm_compute; reflexivity|].
  unfold comma_data. rewrite (proj1 (fresh_spec _ _)). cbn [dIps].
  split. { intros row [<-|[<-|[]]]; (split; [repeat (constructor; [apply one_line_lit; reflexivity|]); constructor|vm_compute; reflexivity]). }
  split. { apply C54_json_ok; [|unfold int64; cbn; lia]. constructor; cbn [dFields dVersion vVersion vExtra]; [repeat (constructor; [ascii|]); constructor|ascii|constructor]. }
  eexists _, (str "1,2"). split; [left; reflexivity|]. split; [right; right; left; reflexivity|]. intros X. vm_compute in X. discriminate X.
Qed.

(** Only for country CN is the AS number kept. *)
Definition cn_rule : rule := mkRule (str "country") true [str "CN"] [str "country"].

Example C67_text_case : legal comma_data /\
  scannable (jVer case_env) (jUnVer case_env) (eClock case_env) (contents comma_data) comma_blocks /\ disjoint comma_blocks /\ last_ends comma_blocks /\
  Forall (fun b => (logsz b < 128)%N) comma_blocks /\
  NoDup [str "asn"; str "country"] /\ incl [str "asn"; str "country"] (hFields comma_data) /\ plain_columns [str "asn"; str "country"] /\
  Forall (no_bytes (str "|,")) [str "asn"; str "country"] /\
  rule_ok cn_rule /\ in_force [str "asn"; str "country"] cn_rule = true /\ show_rules [str "asn"; str "country"] [cn_rule] <> [] /\
  json_ok (jMeta case_env) (jUnMeta case_env) (eNow case_env) (mkData [str "asn"; str "country"] (hVersion comma_data) []).
Proof.
  split; [exact (proj1 (proj2 (fresh_spec _ _)))|]. split.
  { unfold comma_data. rewrite (proj1 (fresh_spec _ _)). constructor; cbn [dVersion dFields dIps].
    - split; [split; intros []|reflexivity].
    - vm_compute; reflexivity.
    - split; [apply one_line_lit; vm_compute; reflexivity|vm_compute; reflexivity].
    - split; [discriminate|]. split; [|reflexivity]. repeat constructor; (apply lit_no; reflexivity).
    - repeat constructor; cbn; try lia; reflexivity.
    - repeat constructor; cbn; try lia; try reflexivity; (apply lit_no; reflexivity). }
  split; [apply disjointb_ok; vm_compute; reflexivity|].
  split. { intros [|[|n]] b Hn He; [|reflexivity|destruct n; discriminate Hn]. exfalso. injection Hn as <-. destruct He as [[_ H]|H]; vm_compute in H; discriminate H. }
  split; [repeat constructor|]. split; [repeat constructor; cbn; intuition discriminate|].
  split. { intros f [<-|[<-|[]]]; cbn; auto. }
  split. { intros f [<-|[<-|[]]] N H; vm_compute in H; discriminate H. }
  split. { repeat constructor; (apply lit_no; reflexivity). }
  split. { constructor; cbn [cn_rule rkey rvals rnot rkeep]; [|split; [discriminate|]|discriminate|split; [discriminate|]]; repeat constructor; (apply lit_no; reflexivity). }
  split; [reflexivity|]. split; [discriminate|].
  apply C54_json_ok; [|unfold int64; cbn; lia]. constructor; cbn [dFields dVersion vVersion vExtra]; [repeat (constructor; [ascii|]); constructor|ascii|].
  constructor.
Qed.

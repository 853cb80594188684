(** Lemmas for C57: from a file through a dump back into a file. *)
From Verif Require Import Base NetIP IpNet Spec IpNetProofs SplitProofs IpNetProofs2 Ipdb SpecIpdb SpecExport Export ExportProofs BuildProofs Bits.
From Verif Require Import TrieProofs WriterProofs ReaderProofs OpenProofs PackProofs PropsIpdb DumpProofs PropsExport PropsDump.
Open Scope N_scope.

(* ---------- the answer of a file and what its dump shows ---------- *)
Lemma continent_name_idem v : continent_name (continent_name v) = continent_name v.
Proof.
  rewrite <- !cont_name_spec. unfold cont_name at 2 3.
  repeat match goal with |- context [if bytes_eqb v ?n then _ else _] => destruct (bytes_eqb_spec v n); [reflexivity|] end.
  unfold cont_name.
  repeat match goal with |- context [if bytes_eqb v ?n then _ else _] => destruct (bytes_eqb_spec v n); [contradiction|] end.
  reflexivity.
Qed.

Lemma continent_name_no_tab v : no_byte x09 v -> no_byte x09 (continent_name v).
Proof.
  intros H. rewrite <- cont_name_spec. unfold cont_name.
  repeat match goal with |- context [if bytes_eqb v ?n then _ else _] => destruct (bytes_eqb v n);
    [intros Q; apply in_map with (f := b2n) in Q; vm_compute in Q; intuition discriminate|] end.
  assumption.
Qed.

(** What a successful lookup shows: the values of the columns. *)
Record shows (r : Reader) (ret : list bytes) : Prop := {
  sh_len : length ret = length (mFields (rMeta r));
  sh_tab : Forall (no_byte x09) ret;
  sh_cont : forall i v, offset_of FieldContinentCode (mFields (rMeta r)) = Some i -> nth_error ret i = Some v -> continent_name v = v }.

Lemma split_no_sep sep s : Forall (no_byte sep) (split sep s).
Proof.
  induction s as [|c s IH]; cbn [split]; [constructor; [intros []|constructor]|].
  destruct (byte_eqb_spec c sep) as [->|N]; [constructor; [intros []|assumption]|].
  destruct (split sep s) as [|h t]; [constructor; [|constructor]; intros [Q|[]]; congruence|].
  inversion IH; subst. constructor; [|assumption]. intros [Q|Q]; [congruence|contradiction].
Qed.

Lemma Forall_firstn' {A} (P : A -> Prop) n l : Forall P l -> Forall P (firstn n l).
Proof. intros H. rewrite <- (firstn_skipn n l) in H. apply Forall_app in H. apply H. Qed.
Lemma Forall_skipn' {A} (P : A -> Prop) n l : Forall P l -> Forall P (skipn n l).
Proof. intros H. rewrite <- (firstn_skipn n l) in H. apply Forall_app in H. apply H. Qed.
Lemma Forall_upd {A} (P : A -> Prop) l i x : Forall P l -> P x -> Forall P (upd l i x).
Proof.
  intros H Hx. revert i. induction H as [|y l Hy H IH]; intros [|i]; cbn [upd]; constructor; auto.
Qed.

Lemma decodeInfo_shows unmarshal data r body off ret : newReaderFromBytes unmarshal data = Ok r ->
  decodeInfo r body off = Ok ret -> shows r ret.
Proof.
  intros O D. pose proof (open_rinv _ _ _ O) as RI.
  assert (rCont r = offset_of FieldContinentCode (mFields (rMeta r))) as EC.
  { revert O. unfold newReaderFromBytes.
    destruct (slice data 0 4) as [h| | |]; cbn [bind]; try discriminate. destruct (_ <? _)%Z; [discriminate|].
    destruct (zslice data 4 _) as [mb| | |]; cbn [bind]; try discriminate. destruct (unmarshal mb) as [meta|]; [|discriminate].
    destruct (_ || _)%bool; [discriminate|]. destruct (negb _); [discriminate|].
    destruct (zslice data _ _) as [bd| | |]; cbn [bind]; try discriminate.
    destruct (HasIPv4 meta).
    - destruct (v4walk _ _ _ _ _) as [v4| | |]; cbn [bind]; try discriminate.
      destruct (initBitsCache bd (mNodeCount meta) v4) as [c| | |]; cbn [bind]; try discriminate.
      intros Q. assert (r = mkReader (Z.of_nat (length data)) (mNodeCount meta) v4 meta bd (offset_of FieldContinentCode (mFields meta)) (Some c)) as -> by congruence. reflexivity.
    - intros Q. assert (r = mkReader (Z.of_nat (length data)) (mNodeCount meta) 0 meta bd (offset_of FieldContinentCode (mFields meta)) None) as -> by congruence. reflexivity. }
  unfold decodeInfo in D. rewrite EC in D.
  destruct (Z.ltb_spec (Z.of_nat (length (split x09 body))) (off + Z.of_nat (length (mFields (rMeta r))))) as [|L]; [discriminate|].
  destruct (Z.ltb_spec off 0) as [|L0]; [discriminate|].
  destruct (slice _ _ _) as [vals| | |] eqn:Sl; cbn [bind] in D; try discriminate.
  assert (vals = firstn (Z.to_nat (off + Z.of_nat (length (mFields (rMeta r)))) - Z.to_nat off) (skipn (Z.to_nat off) (split x09 body))) as Ev.
  { unfold slice in Sl. destruct (_ && _)%bool in Sl; congruence. }
  assert (length vals = length (mFields (rMeta r))) as Lv.
  { rewrite Ev, firstn_length, skipn_length. lia. }
  assert (Forall (no_byte x09) vals) as Tv.
  { rewrite Ev. apply Forall_firstn', Forall_skipn', split_no_sep. }
  destruct (offset_of FieldContinentCode (mFields (rMeta r))) as [i|] eqn:Eo.
  - unfold idx in D. destruct (nth_error vals i) as [v|] eqn:En; cbn [bind] in D; [|discriminate].
    assert (ret = upd vals i (cont_name v)) as -> by congruence. rewrite cont_name_spec.
    assert (i < length vals)%nat as Li by (apply nth_error_Some; congruence).
    constructor.
    + rewrite upd_length. assumption.
    + apply Forall_upd; [assumption|]. apply continent_name_no_tab. rewrite Forall_forall in Tv. eapply Tv, nth_error_In. eassumption.
    + intros j w Ej Ew. assert (j = i) as -> by congruence.
      assert (nth_error (upd vals i (continent_name v)) i = Some (continent_name v)) as Eu.
      { clear - Li. revert i Li. induction vals as [|y vals IH]; intros [|i] Li; cbn in *; try lia; [reflexivity|]. apply IH. lia. }
      rewrite Eu in Ew. assert (w = continent_name v) as -> by congruence. apply continent_name_idem.
  - assert (ret = vals) as -> by congruence. constructor; [assumption|assumption|]. intros i v Ei. congruence.
Qed.

(** A record found below ::/0 is at least one bit down. *)
Lemma find0_pos unmarshal data r ip node rec m : newReaderFromBytes unmarshal data = Ok r -> valid_ip ip ->
  v4b (addr ip) = false -> find0 r ip = Ok (node, rec, m) -> m <> O.
Proof.
  intros O V E4 F ->. pose proof (open_rinv _ _ _ O) as RI.
  unfold find0 in F. rewrite is_nil_to4, negb_involutive, E4 in F by assumption.
  assert (is_nil (to16 ip) = false) as E16.
  { apply is_nil_false. intros Q. pose proof (to16_length ip V) as L. rewrite Q in L. discriminate. }
  rewrite E16 in F. cbn [negb] in F. destruct (HasIPv6 (rMeta r)); [|discriminate].
  pose proof (bits_len16 _ (to16_length _ V)) as L.
  rewrite search_walk in F by (assumption || (right; reflexivity)).
  change ((128 =? 32)%nat) with false in F. cbv iota in F.
  destruct (bits (to16 ip)) as [|b bs]; [discriminate|]. cbn [rwalk] in F.
  destruct (Z.leb_spec (rNodeCount r) 0) as [Ln|Ln].
  - cbn [bind] in F. destruct (Z.ltb_spec (rNodeCount r) 0) as [L0|L0]; cbn [bind] in F; [|discriminate].
    unfold resolve in F. destruct (rFileSize r <=? _)%Z in F; [discriminate F|]. unfold zslice in F.
    replace ((0 - rNodeCount r + rNodeCount r * 8 <? 0)%Z) with true in F by lia. discriminate F.
  - destruct (readNode (rData r) 0 b) as [n| | |]; cbn [bind] in F; try discriminate.
    destruct (rwalk (rData r) (rNodeCount r) bs n) as [[n' k]| | |]; cbn [bind] in F; try discriminate.
    destruct (rNodeCount r <? n')%Z; cbn [bind] in F; [|discriminate].
    destruct (resolve r n'); cbn [bind] in F; discriminate.
Qed.

Lemma findMap_Query unmarshal data r ip n rec : newReaderFromBytes unmarshal data = Ok r -> valid_ip ip ->
  findMap r ip (str "CN") = Ok (n, rec) ->
  exists ret m, shows r ret /\ rec = field_map (mFields (rMeta r)) ret /\
    Query r [] ip = Ok (make_info (mFields (rMeta r)) ret, m) /\
    exists b, net_is n b /\ aligned b /\ in_block b (addr ip) /\ logsz b < 128 /\ m = prefix_len (addr ip) b.
Proof.
  intros O V F. unfold findMap, find1 in F. unfold Query, QueryInternal. cbn [qget].
  destruct (assoc (str "CN") (mLanguages (rMeta r))) as [off|] eqn:EL; cbn [bind] in F; [|discriminate].
  destruct (find0 r ip) as [[[node body] m]| | |] eqn:F0; cbn [bind] in F; try discriminate.
  cbn [bind].
  destruct (decodeInfo r body off) as [ret| | |] eqn:ED; cbn [bind] in F; try discriminate. cbn [bind].
  injection F as Fn Fr. change (IpNet ip (Z.of_nat m) = n) in Fn.
  exists ret, m. split; [eapply decodeInfo_shows; eassumption|]. split; [congruence|]. split; [reflexivity|].
  destruct (C16_prefix_is_right _ _ _ _ _ _ _ O V F0) as [L _].
  assert ((m <= (if is_nil (to4 ip) then 128 else 32))%nat) as Lm.
  { rewrite is_nil_to4 by assumption. unfold family_bits in L. destruct (v4b (addr ip)); cbn [negb]; lia. }
  destruct (IpNet_spec ip m V Lm) as [k [Ek Hn]]. rewrite Fn in Hn.
  rewrite is_nil_to4 in Ek by assumption.
  eexists. split; [exact Hn|]. split; [apply floor_aligned|]. split; [apply floor_in|]. cbn [logsz].
  unfold prefix_len. cbn [logsz]. unfold family_bits in L. pose proof (find0_pos _ _ _ _ node body m O V) as Pz.
  destruct (v4b (addr ip)); cbn [negb] in Ek; [lia|]. specialize (Pz eq_refl F0). lia.
Qed.

(* ---------- the columns of the dump ---------- *)
Lemma column_const names fields (fv : bytes -> bytes) (w : bytes) :
  (forall x, In x fields -> in_array x names = true -> fv x = w) ->
  ((forall x, In x fields -> in_array x names = false) -> w = []) ->
  column names fields (map fv fields) = w.
Proof.
  intros H H0. unfold column.
  assert (map snd (filter (fun p => in_array (fst p) names) (combine fields (map fv fields))) =
          map fv (filter (fun x => in_array x names) fields)) as ->.
  { clear. induction fields as [|f fs IH]; [reflexivity|]. cbn [map combine filter fst]. destruct (in_array f names); cbn [map snd]; rewrite IH; reflexivity. }
  assert (Forall (fun y => fv y = w) (filter (fun x => in_array x names) fields)) as A.
  { apply Forall_forall. intros x I. apply filter_In in I. apply H; tauto. }
  destruct (filter (fun x => in_array x names) fields) as [|y l] eqn:E.
  - cbn. symmetry. apply H0. intros x I. destruct (in_array x names) eqn:Ex; [exfalso|reflexivity].
    assert (In x []) as []. rewrite <- E. apply filter_In. auto.
  - clear E H H0. inversion A as [|? ? H1 A']; subst. clear A.
    revert y A'. induction l as [|z l IH]; intros y A'; [reflexivity|]. inversion A' as [|? ? Hz A2]; subst.
    change (last (map fv (z :: l)) [] = fv y). rewrite <- Hz. apply IH. rewrite Hz. assumption.
Qed.

Lemma show_continent_id fields (fv : bytes -> bytes) :
  (forall x, In x fields -> in_array x [str "continent"; str "continent_code"] = true -> continent_name (fv x) = fv x) ->
  show_continent fields (map fv fields) = map fv fields.
Proof.
  intros H. induction fields as [|f fs IH]; [reflexivity|]. cbn [map show_continent].
  destruct (in_array f _) eqn:E; [rewrite H by (assumption || (left; reflexivity)); reflexivity|].
  rewrite IH; [reflexivity|]. intros x I. apply H. right. assumption.
Qed.

Lemma common_values_distinct f f' g : In (f, g) CommonFieldsMap -> In (f', g) CommonFieldsMap -> f = f'.
Proof.
  intros I I'. unfold CommonFieldsMap in I, I'. cbn [In] in I, I'.
  repeat (destruct I as [I|I]; [injection I as <- <-; repeat (destruct I' as [I'|I']; [first [discriminate I'|injection I' as <-; reflexivity]|]); destruct I'|]).
  destruct I.
Qed.

Lemma In_ExtKeys mf f g : In (f, g) CommonFieldsMap -> (In f (ExtKeys CommonFieldsMap mf) <-> In g mf).
Proof.
  intros I. unfold ExtKeys. rewrite in_flat_map. split.
  - intros (v & Iv & If). apply in_map_iff in If as ([f' g'] & E & Iq). cbn [fst] in E. subst f'.
    apply filter_In in Iq as [Iq Q]. cbn [snd] in Q. destruct (bytes_eqb_spec v g') as [->|]; [|discriminate].
    assert (g' = g) as -> by (pose proof (assoc_nodup _ _ _ common_nodup Iq); pose proof (assoc_nodup _ _ _ common_nodup I); congruence).
    assumption.
  - intros Ig. exists g. split; [assumption|]. apply in_map_iff. exists (f, g). split; [reflexivity|].
    apply filter_In. split; [assumption|]. cbn [snd]. apply bytes_eqb_refl.
Qed.
Lemma ExtKeys_common mf f : In f (ExtKeys CommonFieldsMap mf) -> exists g, In (f, g) CommonFieldsMap /\ In g mf.
Proof.
  intros I. pose proof I as I'. unfold ExtKeys in I. apply in_flat_map in I as (v & Iv & If).
  apply in_map_iff in If as ([f' g'] & E & Iq). cbn [fst] in E. subst f'.
  apply filter_In in Iq as [Iq Q]. exists g'. split; [assumption|]. eapply In_ExtKeys; eassumption.
Qed.

Lemma colc_absent g mf ret : ~ In g mf -> colc g (combine mf ret) = [].
Proof.
  intros N. unfold colc. replace (filter _ _) with (@nil (bytes * bytes)); [reflexivity|].
  symmetry. induction mf as [|f fs IH] in ret, N |- *; [reflexivity|]. destruct ret as [|v vs]; [reflexivity|].
  cbn [combine filter fst]. destruct (bytes_eqb_spec f g) as [->|]; [exfalso; apply N; left; reflexivity|].
  apply IH. intros I. apply N. right. assumption.
Qed.

Lemma field_value_colc mf ret f g : In (f, g) CommonFieldsMap ->
  field_value CommonFieldsMap (field_map mf ret) f = colc g (combine mf ret).
Proof.
  intros I. unfold field_value, field_map. rewrite (assoc_nodup _ _ _ common_nodup I). apply assoc_rev_colc.
Qed.

Ltac in_common := unfold CommonFieldsMap; cbn [In]; auto 20.
(** In which columns a name of the answer may stand. *)
Lemma common_name f g f' g' : In (f, g) CommonFieldsMap -> In (f', g') CommonFieldsMap -> in_array f' [f; g] = true -> f' = f /\ g' = g.
Proof.
  intros I I' H. assert (f' = f) as ->.
  { apply in_array_iff in H. destruct H as [H|[H|[]]]; [congruence|]. subst f'.
    unfold CommonFieldsMap in I, I'. cbn [In] in I, I'.
    repeat (destruct I as [I|I]; [injection I as <- <-; repeat (destruct I' as [I'|I']; [first [discriminate I'|reflexivity]|]); destruct I'|]).
    destruct I. }
  split; [reflexivity|]. pose proof (assoc_nodup _ _ _ common_nodup I). pose proof (assoc_nodup _ _ _ common_nodup I'). congruence.
Qed.

(** The first continent column is the only one when the dump has distinct columns. *)
Lemma flat_map_dup mf g f : In (f, g) CommonFieldsMap -> NoDup (ExtKeys CommonFieldsMap mf) ->
  forall i j, nth_error mf i = Some g -> nth_error mf j = Some g -> i = j.
Proof.
  intros I. induction mf as [|v mf IH]; intros ND i j Hi Hj; [destruct i; discriminate|].
  cbn [ExtKeys flat_map] in ND. fold (ExtKeys CommonFieldsMap mf) in ND. change (flat_map _ mf) with (ExtKeys CommonFieldsMap mf) in ND.
  assert (v = g -> ~ In g mf) as Q.
  { intros -> Ig. apply (In_ExtKeys mf f g I) in Ig.
    assert (In f (map fst (filter (fun kv => bytes_eqb g (snd kv)) CommonFieldsMap))) as If.
    { apply in_map_iff. exists (f, g). split; [reflexivity|]. apply filter_In. split; [assumption|]. apply bytes_eqb_refl. }
    clear - ND If Ig. induction (map fst (filter _ _)) as [|x l IH]; [destruct If|].
    cbn [app] in ND. inversion ND; subst. destruct If as [->|If]; [apply H1, in_or_app; right; assumption|auto]. }
  assert (NoDup (ExtKeys CommonFieldsMap mf)) as ND'.
  { clear - ND. induction (map fst (filter _ _)) as [|x l IH]; [exact ND|]. inversion ND; subst. auto. }
  destruct i as [|i], j as [|j]; cbn [nth_error] in Hi, Hj.
  - reflexivity.
  - exfalso. injection Hi as ->. apply Q; [reflexivity|]. eapply nth_error_In; eassumption.
  - exfalso. injection Hj as ->. apply Q; [reflexivity|]. eapply nth_error_In; eassumption.
  - f_equal. eapply IH; eassumption.
Qed.

Lemma offset_of_nth k l i : offset_of k l = Some i -> nth_error l i = Some k.
Proof.
  revert i. induction l as [|x l IH]; intros i; cbn [offset_of]; [discriminate|].
  destruct (bytes_eqb_spec x k) as [->|]; [intros E; assert (i = 0%nat) as -> by congruence; reflexivity|].
  destruct (offset_of k l) as [j|]; intros E; try discriminate. assert (i = S j) as -> by congruence. cbn [nth_error]. auto.
Qed.
Lemma offset_of_in k l : In k l -> exists i, offset_of k l = Some i.
Proof.
  induction l as [|x l IH]; intros I; [destruct I|]. cbn [offset_of].
  destruct (bytes_eqb_spec x k) as [->|]; eauto.
  destruct I as [->|I]; [congruence|]; destruct (IH I) as [i ->]; eauto.
Qed.

(** colc of a column with one position *)
Lemma colc_at g mf ret i v : (forall j, nth_error mf j = Some g -> j = i) -> nth_error mf i = Some g -> nth_error ret i = Some v ->
  colc g (combine mf ret) = v.
Proof.
  revert ret i. induction mf as [|f mf IH]; intros [|w ret] [|i] U H1 H2; try discriminate; cbn [nth_error] in H1, H2.
  - injection H1 as ->. injection H2 as ->. unfold colc. cbn [combine filter fst]. rewrite bytes_eqb_refl. cbn [map snd].
    assert (~ In g mf) as N.
    { intros I. apply In_nth_error in I as [j Hj]. specialize (U (S j) Hj). discriminate. }
    pose proof (colc_absent g mf ret N) as Q. unfold colc in Q.
    destruct (filter (fun fv => bytes_eqb (fst fv) g) (combine mf ret)) as [|e l] eqn:E; [reflexivity|].
    exfalso. assert (In e (filter (fun fv => bytes_eqb (fst fv) g) (combine mf ret))) as I by (rewrite E; left; reflexivity).
    apply filter_In in I as [I B]. destruct e as [f' v']. apply in_combine_l in I. cbn [fst] in B. destruct (bytes_eqb_spec f' g); [subst; contradiction|discriminate].
  - assert (f <> g) as N by (intros ->; specialize (U 0%nat eq_refl); discriminate).
    assert (colc g (combine (f :: mf) (w :: ret)) = colc g (combine mf ret)) as ->.
    { unfold colc. cbn [combine filter fst]. destruct (bytes_eqb_spec f g); [contradiction|reflexivity]. }
    apply (IH ret i); [|assumption|assumption]. intros j Hj. specialize (U (S j) Hj). lia.
Qed.

Definition dump_fields (r : Reader) : list bytes := ExtKeys CommonFieldsMap (mFields (rMeta r)).
Definition dump_row (r : Reader) (ret : list bytes) : list bytes :=
  map (field_value CommonFieldsMap (field_map (mFields (rMeta r)) ret)) (dump_fields r).

(** What the dump shows of a row is what a query shows. *)
Lemma dump_row_info r ret : shows r ret -> NoDup (dump_fields r) ->
  row_info (dump_fields r) (dump_row r ret) = make_info (mFields (rMeta r)) ret.
Proof.
  intros [Sl St Sc] ND. unfold row_info, dump_row. set (mf := mFields (rMeta r)) in *. set (fv := field_value CommonFieldsMap (field_map mf ret)).
  assert (show_continent (dump_fields r) (map fv (dump_fields r)) = map fv (dump_fields r)) as ->.
  { apply show_continent_id. intros x Ix Hx. apply ExtKeys_common in Ix as (g & Ig & Im).
    destruct (common_name (str "continent") (str "continent_code") x g ltac:(in_common) Ig Hx) as [-> ->].
    unfold fv. rewrite (field_value_colc _ _ _ _ Ig).
    change (mFields (rMeta r)) with mf in Im. destruct (offset_of_in _ _ Im) as [i Ei]. pose proof (offset_of_nth _ _ _ Ei) as Ni.
    assert (i < length mf)%nat as Li by (apply nth_error_Some; congruence).
    destruct (nth_error ret i) as [v|] eqn:Ev; [|apply nth_error_None in Ev; fold mf in Sl; lia].
    rewrite (colc_at _ _ _ i v); [|intros j Hj; eapply flat_map_dup; eassumption|assumption|assumption].
    apply (Sc i v Ei Ev). }
  unfold make_info. rewrite make_info_cols.
  assert (forall f g, In (f, g) CommonFieldsMap -> forall names, (forall x, in_array x names = in_array x [f; g]) ->
     column names (dump_fields r) (map fv (dump_fields r)) = colc g (combine mf ret)) as C.
  { intros f g I names Hn. apply column_const.
    - intros x Ix Hx. rewrite Hn in Hx. apply ExtKeys_common in Ix as (g' & Ig & Im).
      destruct (common_name f g x g' I Ig Hx) as [-> ->]. apply field_value_colc. assumption.
    - intros N. apply colc_absent. intros Im. apply (In_ExtKeys _ _ _ I) in Im. specialize (N f Im).
      rewrite Hn in N. cbn in N. rewrite bytes_eqb_refl in N. discriminate. }
  f_equal; (eapply C; [in_common|intros x; unfold in_array; cbn [existsb]; try reflexivity; rewrite ?orb_false_r, ?orb_diag; reflexivity]).
Qed.

(* ---------- a successful dump, row by row ---------- *)
Record dumped_by (r : Reader) (vals : list bytes -> list bytes -> Prop) (row : IpRaw) (b : block) : Prop := {
  dr_net : net_is (cidr row) b;
  dr_aligned : aligned b;
  dr_size : logsz b < 128;
  dr_family : v4b (base b) = negb (IpType (rMeta r) =? 2)%Z;
  dr_values : exists ret, shows r ret /\ vals ret (fvals row) /\
    forall ip, valid_ip ip -> in_block b (addr ip) -> v4b (addr ip) = negb (IpType (rMeta r) =? 2)%Z ->
      Query r [] ip = Ok (make_info (mFields (rMeta r)) ret, prefix_len (addr ip) b) }.
Definition dumped_row (r : Reader) : IpRaw -> block -> Prop := dumped_by r (fun ret v => v = dump_row r ret).

Lemma tiles_aligned s bs e : tiles s bs e -> Forall aligned bs.
Proof. revert s. induction bs as [|b bs IH]; intros s T; [constructor|]. destruct T as [_ [A T]]. constructor; eauto. Qed.

Lemma dump_rows_by unmarshal fuel data ept d : dump unmarshal fuel data ept = Ok d ->
  exists r bs, newReaderFromBytes unmarshal data = Ok r /\ dFields d = out_fields CommonFieldsMap (mFields (rMeta r)) ept /\ dVersion d = version r /\
    tiles (fam_first (dump_family (IpType (rMeta r)))) bs (fam_end (dump_family (IpType (rMeta r)))) /\
    Forall2 (dumped_by r (fun ret v => exported CommonFieldsMap ept (out_fields CommonFieldsMap (mFields (rMeta r)) ept) (field_map (mFields (rMeta r)) ret) v)) (dIps d) bs.
Proof.
  intros H. unfold dump in H.
  destruct (newReaderFromBytes unmarshal data) as [r| | |] eqn:O; cbn [bind] in H; try discriminate.
  destruct (BuildIPData _ _ _ _ _ _) as [[ofs rows]| | |] eqn:B; cbn [bind] in H; try discriminate. injection H as <-.
  destruct (C19_success_covers _ _ _ _ (version r) _ _ _ common_nodup (findMap_finder_ok _ _ r (str "CN") O) B) as [-> [bs [T [F2 _]]]].
  change (vIpType (version r)) with (IpType (rMeta r)) in T.
  exists r, bs. cbn [dFields dVersion dIps]. split; [reflexivity|]. split; [reflexivity|]. split; [reflexivity|]. split; [assumption|].
  pose proof (tiles_covers _ _ _ T) as [_ Cv]. pose proof (tiles_aligned _ _ _ T) as Al.
  assert (forall b, In b bs -> fam_first (dump_family (IpType (rMeta r))) <= base b < fam_end (dump_family (IpType (rMeta r)))) as Rg.
  { intros b I. apply Cv. exists b. split; [assumption|apply in_block_base]. }
  clear T Cv B. induction F2 as [|row b rows bs H F2 IH]; constructor.
  2:{ apply IH; [inversion Al; assumption|]. intros c I. apply Rg. right. assumption. }
  clear IH F2. inversion Al as [|? ? Ab _]; subst. destruct H as [Hn (ip & rec & V & Ea & Fi & Ex)].
  specialize (Rg b (or_introl eq_refl)). rewrite <- Ea in Rg.
  assert (v4b (addr ip) = negb (IpType (rMeta r) =? 2)%Z) as Ev.
  { unfold dump_family in Rg. destruct (Z.eqb_spec (IpType (rMeta r)) 2) as [E2|E2]; cbn [negb].
    - destruct (v4b (addr ip)) eqn:E; [exfalso; eapply findMap_v4_unsupported; eassumption|reflexivity].
    - apply v4b_iff. exact Rg. }
  destruct (findMap_Query _ _ _ _ _ _ O V Fi) as (ret & m & Sh & Er & _ & (b1 & Hn1 & _ & _ & Ls & _)).
  assert (b1 = b) as -> by (eapply net_is_fun; eassumption).
  constructor; [assumption|assumption|assumption|congruence|].
  exists ret. split; [assumption|]. split.
  { rewrite <- Er. exact Ex. }
  intros ip' V' B' E'.
  destruct (C16_findmap_network _ _ _ _ _ _ _ O V Fi) as (b0 & Hn0 & _ & _ & G).
  assert (b0 = b) as -> by (eapply net_is_fun; eassumption).
  assert (findMap r ip' (str "CN") = Ok (cidr row, rec)) as Fi' by (apply G; [assumption|assumption|congruence]).
  destruct (findMap_Query _ _ _ _ _ _ O V' Fi') as (ret' & m' & Sh' & Er' & Q & (b' & Hn' & _ & _ & _ & Em)).
  assert (b' = b) as -> by (eapply net_is_fun; eassumption). rewrite Q, Em. do 2 f_equal.
  assert (ret' = ret) as ->; [|reflexivity].
  rewrite Er in Er'. unfold field_map in Er'. apply (f_equal (@rev _)) in Er'. rewrite !rev_involutive in Er'.
  destruct Sh as [L _ _], Sh' as [L' _ _]. clear - L L' Er'. revert L L' Er'. generalize (mFields (rMeta r)) as mf. revert ret ret'. intros ret0 ret0' mf. revert ret0 ret0'.
  induction mf as [|f mf IH]; intros [|v ret] [|v' ret'] L L' E; try discriminate; [reflexivity|].
  cbn [combine] in E. injection E as -> E. f_equal. apply IH; [cbn in L; lia|cbn in L'; lia|assumption].
Qed.

Lemma dump_rows unmarshal fuel data d : dump unmarshal fuel data None = Ok d ->
  exists r bs, newReaderFromBytes unmarshal data = Ok r /\ dFields d = dump_fields r /\ dVersion d = version r /\
    tiles (fam_first (dump_family (IpType (rMeta r)))) bs (fam_end (dump_family (IpType (rMeta r)))) /\
    Forall2 (dumped_row r) (dIps d) bs.
Proof.
  intros H. destruct (dump_rows_by _ _ _ _ _ H) as (r & bs & O & Ef & Ev & T & F2). exists r, bs.
  split; [assumption|]. split; [assumption|]. split; [assumption|]. split; [assumption|].
  clear - F2. induction F2 as [|row b rows bs [H1 H2 H3 H4 (ret & Sh & Ex & G)] F2 IH]; constructor; [|assumption].
  constructor; [assumption|assumption|assumption|assumption|]. exists ret. split; [assumption|]. split; [|assumption].
  exact Ex.
Qed.

(** Values of a dump contain no tab. *)
Lemma colc_tab g mf ret : Forall (no_byte x09) ret -> no_byte x09 (colc g (combine mf ret)).
Proof.
  intros F. unfold colc. assert (Forall (no_byte x09) (map snd (filter (fun fv => bytes_eqb (fst fv) g) (combine mf ret)))) as A.
  { apply Forall_forall. intros v I. apply in_map_iff in I as ([f w] & <- & I). apply filter_In in I as [I _].
    apply in_combine_r in I. rewrite Forall_forall in F. apply F. assumption. }
  induction A as [|v l Hv A IH]; [intros []|]. cbn [last]. destruct l; assumption.
Qed.
Lemma dump_row_tab r ret : shows r ret -> Forall (no_byte x09) (dump_row r ret).
Proof.
  intros [_ T _]. apply Forall_forall. intros v I. unfold dump_row in I. apply in_map_iff in I as (f & <- & I).
  apply ExtKeys_common in I as (g & I & _). rewrite (field_value_colc _ _ _ _ I). apply colc_tab. assumption.
Qed.

(** The columns of a dump are not spelled Continent. *)
Lemma dump_plain r : plain_columns (dump_fields r).
Proof.
  intros f I N L. apply ExtKeys_common in I as (g & I & _). unfold CommonFieldsMap in I. cbn [In] in I.
  repeat (destruct I as [I|I]; [injection I as <- <-; first [contradiction|vm_compute in L; discriminate L]|]). destruct I.
Qed.

(* ---------- tilings ---------- *)
Lemma tiles_ge s bs e : tiles s bs e -> forall c a, In c bs -> in_block c a -> s <= a.
Proof. intros T c a I B. destruct (tiles_covers _ _ _ T) as [_ C]. apply (C a). eauto. Qed.
Lemma tiles_disjoint s bs e : tiles s bs e -> disjoint bs.
Proof.
  revert s. induction bs as [|b bs IH]; intros s T i j x y N Hi Hj a [Ba Bb]; [destruct i; discriminate|].
  destruct T as [T1 [_ T]]. destruct i as [|i], j as [|j]; cbn [nth_error] in Hi, Hj.
  - congruence.
  - injection Hi as <-. apply nth_error_In in Hj. pose proof (tiles_ge _ _ _ T _ _ Hj Bb). destruct Ba. lia.
  - injection Hj as <-. apply nth_error_In in Hi. pose proof (tiles_ge _ _ _ T _ _ Hi Ba). destruct Bb. lia.
  - apply (IH _ T i j x y ltac:(congruence) Hi Hj a). auto.
Qed.
Lemma tiles_nth s bs e a : tiles s bs e -> s <= a < e -> exists i b, nth_error bs i = Some b /\ in_block b a.
Proof.
  intros T R. destruct (tiles_covers _ _ _ T) as [_ C]. destruct (proj2 (C a) R) as (b & I & B).
  apply In_nth_error in I as [i Hi]. eauto.
Qed.

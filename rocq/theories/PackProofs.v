(** Packing and querying: the ipdb packer and querier refine [store]/[answer]. *)
From Verif Require Import Base NetIP IpNet Spec IpNetProofs SplitProofs IpNetProofs2 Ipdb SpecIpdb Bits.
From Verif Require Import TrieProofs WriterProofs ReaderProofs OpenProofs.
Open Scope Z_scope.

(* ---------- store and mapping the records ---------- *)
Definition mapv {V W} (f : V -> W) (m : list (block * V)) : list (block * W) := map (fun e => (fst e, f (snd e))) m.
Lemma mapv_store {V W} (f : V -> W) m b v : mapv f (store m b v) = store (mapv f m) b (f v).
Proof.
  unfold store, mapv.
  assert (existsb (fun e => strictly_inside b (fst e) || strictly_inside (fst e) b) (map (fun e => (fst e, f (snd e))) m)
        = existsb (fun e => strictly_inside b (fst e) || strictly_inside (fst e) b) m) as ->.
  { induction m as [|e m IH]; [reflexivity|]. cbn [map existsb fst]. rewrite IH. reflexivity. }
  destruct (existsb _ m); [reflexivity|]. cbn [map fst snd]. f_equal.
  induction m as [|e m IH]; [reflexivity|]. cbn [filter map fst]. destruct (negb _); cbn [map fst]; rewrite IH; reflexivity.
Qed.
Lemma mapv_lookup {V W} (f : V -> W) m a : lookup (mapv f m) a = match lookup m a with Some (b, v) => Some (b, f v) | None => None end.
Proof.
  unfold lookup, mapv. induction m as [|[b v] m IH]; [reflexivity|]. cbn [map find fst snd].
  destruct (in_blockb b a); [reflexivity|apply IH].
Qed.

(* ---------- columns ---------- *)
Definition colc (name : bytes) (l : list (bytes * bytes)) : bytes :=
  last (map snd (filter (fun fv => bytes_eqb (fst fv) name) l)) [].
Lemma colc_snoc name l f v : colc name (l ++ [(f, v)]) = if bytes_eqb f name then v else colc name l.
Proof.
  unfold colc. rewrite filter_app, map_app. cbn [filter fst]. destruct (bytes_eqb f name); cbn [map snd].
  - apply last_last.
  - rewrite app_nil_r. reflexivity.
Qed.

Lemma make_info_cols l : fold_left (fun info fv => set_field info (fst fv) (snd fv)) l emptyInfo =
  mkInfo (colc FieldCountryName l) (colc fDistrict l) (colc FieldRegionName l) (colc FieldCityName l)
         (colc fAsn l) (colc FieldISPDomain l) (colc FieldContinentCode l) (colc fLine l).
Proof.
  induction l as [|[f v] l IH] using rev_ind; [reflexivity|].
  rewrite fold_left_app, IH. cbn [fold_left fst snd]. rewrite !colc_snoc. unfold set_field.
  repeat match goal with |- context [bytes_eqb f ?n] => destruct (bytes_eqb_spec f n) as [->|?]; [reflexivity|] end.
  reflexivity.
Qed.

Definition covert1 (f : bytes) : bytes := match assoc f CommonFieldsMap with Some g => g | None => f end.
Lemma covert1_names name names : (forall f, bytes_eqb (covert1 f) name = in_array f names) ->
  forall fields values, colc name (combine (map covert1 fields) values) = column names fields values.
Proof.
  intros H fields values. unfold colc, column. f_equal.
  revert values; induction fields as [|f fs IH]; intros [|v vs]; try reflexivity.
  cbn [map combine filter fst]. rewrite H. destruct (in_array f names); cbn [map snd]; rewrite IH; reflexivity.
Qed.

Ltac covert_solve :=
  let f := fresh "f" in intros f; unfold covert1, CommonFieldsMap, in_array; cbn [assoc existsb];
  repeat match goal with |- context [bytes_eqb ?n f] =>
    lazymatch n with f => fail | _ => destruct (bytes_eqb_spec n f) as [<-|?]; [reflexivity|] end end;
  repeat match goal with |- context [bytes_eqb f ?n] => destruct (bytes_eqb_spec f n) as [?|?]; [try (subst f; first [reflexivity|congruence])|] end;
  try reflexivity;
  exfalso; match goal with
           | E : f = _, H : _ <> f |- _ => solve [apply H; rewrite E; reflexivity]
           | E : f = _, H : f <> _ |- _ => solve [apply H; rewrite E; reflexivity] end.

Lemma make_info_row fields values : make_info (covertFields fields) values =
  mkInfo (column [str "country"; str "country_name"] fields values)
         (column [str "district"] fields values)
         (column [str "province"; str "region_name"] fields values)
         (column [str "city"; str "city_name"] fields values)
         (column [str "asn"] fields values)
         (column [str "isp"; str "isp_domain"] fields values)
         (column [str "continent"; str "continent_code"] fields values)
         (column [str "line"] fields values).
Proof.
  unfold make_info. rewrite make_info_cols.
  change (covertFields fields) with (map covert1 fields).
  f_equal; apply covert1_names; covert_solve.
Qed.

Lemma cont_name_spec v : cont_name v = continent_name v.
Proof.
  unfold cont_name, continent_name, continents. cbn [assoc].
  repeat match goal with |- context [bytes_eqb v ?n] =>
    replace (bytes_eqb n v) with (bytes_eqb v n) by
      (destruct (bytes_eqb_spec v n), (bytes_eqb_spec n v); congruence); destruct (bytes_eqb v n); [reflexivity|] end.
  reflexivity.
Qed.

Lemma covert_continent f : bytes_eqb (covert1 f) FieldContinentCode = in_array f [str "continent"; str "continent_code"].
Proof. revert f. covert_solve. Qed.

Lemma decode_cont fields vals : (length fields <= length vals)%nat ->
  match offset_of FieldContinentCode (covertFields fields) with
  | None => Ok (firstn (length fields) vals)
  | Some i => let* v := idx (firstn (length fields) vals) i in Ok (upd (firstn (length fields) vals) i (cont_name v))
  end = Ok (firstn (length fields) (show_continent fields vals)).
Proof.
  change (covertFields fields) with (map covert1 fields).
  revert vals; induction fields as [|f fs IH]; intros vals L; [reflexivity|].
  destruct vals as [|v vs]; [cbn in L; lia|]. cbn [map offset_of length firstn show_continent].
  specialize (IH vs ltac:(cbn in L; lia)).
  pose proof (covert_continent f) as Q.
  assert (bytes_eqb FieldContinentCode (covert1 f) = in_array f [str "continent"; str "continent_code"]) as Q2.
  { rewrite <- Q. destruct (bytes_eqb_spec FieldContinentCode (covert1 f)), (bytes_eqb_spec (covert1 f) FieldContinentCode); congruence. }
  rewrite ?Q, ?Q2. destruct (in_array f _).
  - cbn [idx nth_error bind upd firstn]. rewrite cont_name_spec. reflexivity.
  - destruct (offset_of FieldContinentCode (map covert1 fs)) as [i|]; cbn [option_map].
    + unfold idx in *. cbn [nth_error]. destruct (nth_error (firstn (length fs) vs) i) as [x|]; cbn [bind upd firstn] in *; [|discriminate].
      congruence.
    + cbn [firstn]. congruence.
Qed.

(** Extra values beyond the columns do not show. *)
Lemma combine_firstn {A B} (l : list A) (m : list B) : combine l (firstn (length l) m) = combine l m.
Proof. revert m; induction l as [|a l IH]; intros [|b m]; cbn; try reflexivity. rewrite IH. reflexivity. Qed.
Lemma column_firstn names fields vals : column names fields (firstn (length fields) vals) = column names fields vals.
Proof. unfold column. rewrite combine_firstn. reflexivity. Qed.

(* ---------- insert_all ---------- *)
Definition rows_of (ips : list IpRaw) (bs : list block) : list (block * list bytes) :=
  combine bs (map fvals ips).

Lemma insert_all_spec ips bs : Forall2 net_ok ips bs -> forall w P mv,
  winv w P (mapv (join x09) mv) -> wCont w = None ->
  exists w' P', insert_all w ips = Ok w' /\
    winv w' P' (mapv (join x09) (fold_left (fun m e => store m (fst e) (snd e)) (rows_of ips bs) mv)) /\
    wMeta w' = wMeta w.
Proof.
  induction 1 as [|row b ips bs Hr _ IH]; intros w P mv Hw Hc; cbn [insert_all].
  - exists w, P. auto.
  - destruct (insert_spec w P _ (cidr row) b (fvals row) (fvals row) Hw (no_net _ _ Hr) (no_aligned _ _ Hr) (no_size _ _ Hr))
      as [w1 [err [P1 [E1 [W1 [M1 [C1 _]]]]]]].
    { rewrite Hc. reflexivity. }
    rewrite E1. cbn [bind]. rewrite <- mapv_store in W1.
    destruct (IH w1 P1 _ W1 ltac:(congruence)) as [w2 [P2 [E2 [W2 M2]]]].
    exists w2, P2. split; [assumption|]. split; [exact W2|congruence].
Qed.

(** Every stored row is one of the given ones. *)
Lemma store_in {V} m b (v : V) e : In e (store m b v) -> In e m \/ e = (b, v).
Proof.
  unfold store. destruct (existsb _ m); [auto|]. intros [<-|I]; [auto|]. apply filter_In in I as [I _]. auto.
Qed.
Lemma fold_store_in {V} (l : list (block * V)) m e :
  In e (fold_left (fun m e => store m (fst e) (snd e)) l m) -> In e m \/ In e l.
Proof.
  revert m; induction l as [|[b v] l IH]; intros m H; cbn [fold_left fst snd] in H; [auto|].
  apply IH in H as [H|H]; [|cbn; auto]. apply store_in in H as [H|H]; cbn; auto.
Qed.
Lemma store_all_in {V} (l : list (block * V)) e : In e (store_all l) -> In e l.
Proof. intros H. apply fold_store_in in H as [[]|H]. assumption. Qed.

Lemma rows_of_ok ips bs b row : Forall2 row_ok ips bs -> In (b, row) (rows_of ips bs) ->
  exists r, In r ips /\ row_ok r b /\ fvals r = row.
Proof.
  induction 1 as [|r b' ips bs Hr _ IH]; cbn; [tauto|]. intros [Q|I].
  - injection Q as <- <-. eauto.
  - destruct (IH I) as [r' [I' X]]. eauto.
Qed.

(** The metadata of the packed file. *)
Definition meta_of (now : Z) (ipd : IpData) (nodes size : Z) : MetaData :=
  mkMeta now (ipVersion (dVersion ipd)) [(str "CN", 0)] nodes size (covertFields (dFields ipd))
         (vVersion (dVersion ipd)) (vExtra (dVersion ipd)).

Lemma last_continent_none fs i acc : acc = None ->
  (forall f, In f fs -> map lower f <> str "continent") -> last_continent i fs acc = None.
Proof.
  revert i acc; induction fs as [|f fs IH]; intros i acc -> H; cbn [last_continent]; [reflexivity|].
  apply IH; [|intros; apply H; right; assumption].
  destruct (bytes_eqb_spec (map lower f) (str "continent")) as [E|]; [|reflexivity].
  exfalso. apply (H f); [left; reflexivity|assumption].
Qed.
Lemma covert1_lower f : (f <> str "continent" -> map ascii_lower f <> str "continent") -> map lower (covert1 f) <> str "continent".
Proof.
  intros H. unfold covert1, CommonFieldsMap. cbn [assoc].
  repeat match goal with |- context [bytes_eqb ?n f] => destruct (bytes_eqb_spec n f) as [<-|?]; [intros Q; vm_compute in Q; discriminate|] end.
  apply H. match goal with N : fContinent <> f |- _ => intros E; apply N; rewrite E; reflexivity end.
Qed.

Lemma rows_net ips bs : Forall2 row_ok ips bs -> Forall2 net_ok ips bs.
Proof. induction 1; constructor; [apply ro_net|]; assumption. Qed.

Lemma pack_winv now ipd bs : Forall2 net_ok (dIps ipd) bs -> plain_columns (dFields ipd) ->
  exists w P, insert_all (pack_writer now ipd) (dIps ipd) = Ok w /\
    winv w P (mapv (join x09) (store_all (rows_of (dIps ipd) bs))) /\
    wMeta w = meta_of now ipd 0 0 /\
    save_meta w = meta_of now ipd (Z.of_nat (length (wNode w))) (Z.of_nat (length (body w))).
Proof.
  intros HR HC.
  assert (wCont (pack_writer now ipd) = None) as Hc.
  { cbn. apply last_continent_none; [reflexivity|]. intros f I. change (covertFields (dFields ipd)) with (map covert1 (dFields ipd)) in I.
    apply in_map_iff in I as [g [<- I]]. apply covert1_lower. apply HC. assumption. }
  destruct (insert_all_spec _ _ HR (pack_writer now ipd) [[]] [] (winv_init _ _) Hc) as [w [P [E [W M]]]].
  exists w, P. split; [assumption|]. split; [assumption|]. split; [assumption|].
  unfold save_meta. rewrite M. unfold meta_of. cbn. f_equal. unfold body. rewrite app_length. reflexivity.
Qed.

Lemma answer_supported r iptype (ip : bytes) : valid_ip ip -> mIPVersion (rMeta r) = ipVersion (mkVersion iptype 0 0 [] [] []) ->
  supported (rMeta r) ip = holds_family iptype (addr ip) /\
  forall b, mask_for ip b = prefix_len (addr ip) b.
Proof.
  intros V Hm. destruct (to4_spec ip V) as [T1 T2].
  assert (is_nil (to4 ip) = negb (v4b (addr ip))) as E.
  { unfold v4b, v4base. destruct (is_nil (to4 ip)) eqn:Q.
    - apply is_nil_true in Q. rewrite Q in T1. 
      destruct (_ && _) eqn:Q2; [exfalso|reflexivity]. apply andb_true_iff in Q2 as [A B].
      apply N.leb_le in A. apply N.ltb_lt in B. apply T1; [|reflexivity]. split; [assumption|].
      change (65535 * 2 ^ 32 + 2 ^ 32)%N with (65536 * 2 ^ 32)%N in B. assumption.
    - apply is_nil_false in Q. apply T1 in Q as [A B]. symmetry. apply negb_false_iff, andb_true_iff.
      split; [apply N.leb_le; assumption|apply N.ltb_lt]. change (65535 * 2 ^ 32 + 2 ^ 32)%N with (65536 * 2 ^ 32)%N. assumption. }
  assert (is_nil (to16 ip) = false) as E16.
  { apply is_nil_false. intros Q. pose proof (to16_length ip V) as L. rewrite Q in L. discriminate. }
  unfold supported, mask_for, holds_family, prefix_len, HasIPv4, HasIPv6. rewrite E, E16, Hm. cbn [vIpType ipVersion negb andb].
  unfold ipVersion. cbn [vIpType].
  destruct (v4b (addr ip)); cbn [negb]; (split; [|intros b; lia]);
  destruct (Z.eqb_spec iptype 1) as [->|N1]; try reflexivity; destruct (Z.eqb_spec iptype 2) as [->|N2]; reflexivity.
Qed.

Lemma decodeInfo_row r fields row : mFields (rMeta r) = covertFields fields ->
  rCont r = offset_of FieldContinentCode (covertFields fields) -> row <> [] -> Forall (no_byte x09) row ->
  decodeInfo r (join x09 row) 0 =
  if (length row <? length fields)%nat then Err ErrDatabaseError else Ok (firstn (length fields) (show_continent fields row)).
Proof.
  intros Hf Hc Hne Ht. unfold decodeInfo. rewrite split_join by assumption. rewrite Hf, Hc.
  assert (length (covertFields fields) = length fields) as Lf by apply map_length. rewrite Lf.
  destruct (Nat.ltb_spec (length row) (length fields)) as [L|L].
  - replace (Z.of_nat (length row) <? 0 + Z.of_nat (length fields)) with true by lia. reflexivity.
  - replace (Z.of_nat (length row) <? 0 + Z.of_nat (length fields)) with false by lia. cbn [Z.ltb Z.compare].
    replace (Z.to_nat (0 + Z.of_nat (length fields))) with (length fields) by lia. cbn [Z.to_nat].
    unfold slice. replace ((0 <=? length fields)%nat && (length fields <=? length row)%nat) with true by lia.
    cbn [bind skipn]. rewrite Nat.sub_0_r. apply decode_cont. assumption.
Qed.

Lemma query_nobody r fields : mFields (rMeta r) = covertFields fields -> mLanguages (rMeta r) = [(str "CN", 0)] ->
  rCont r = offset_of FieldContinentCode (covertFields fields) -> fields <> [] ->
  (let* info := info_of r [] in Ok (info, 0%nat)) = no_record fields.
Proof.
  intros Hf Hl Hc Hne. unfold info_of. rewrite Hl. cbn [assoc]. rewrite bytes_eqb_refl.
  change [] with (join x09 [[]]) at 1. rewrite (decodeInfo_row r fields [[]] Hf Hc) by (try discriminate; repeat constructor; intros []).
  unfold no_record. cbn [length]. destruct fields as [|f [|g fs]]; [congruence| |reflexivity].
  cbn [length Nat.ltb Nat.leb Nat.eqb bind]. rewrite Hf, make_info_row.
  assert (forall names, column names [f] (firstn 1 (show_continent [f] [[]])) = []) as Q.
  { intros names. cbn [show_continent]. 
    destruct (in_array f [str "continent"; str "continent_code"]); cbn [firstn]; unfold column; cbn [combine filter fst];
    destruct (in_array f names); reflexivity. }
  rewrite !Q. reflexivity.
Qed.

Section Json.
Context (marshal : MetaData -> bytes) (unmarshal : bytes -> option MetaData).

(** Refinement: a packed and reopened database answers by [answer]. *)
Lemma pack_query now ipd bs : Forall2 row_ok (dIps ipd) bs -> plain_columns (dFields ipd) -> dFields ipd <> [] ->
  (forall nodes size, 0 <= nodes < 2 ^ 63 -> 0 <= size < 2 ^ 63 -> unmarshal (marshal (meta_of now ipd nodes size)) = Some (meta_of now ipd nodes size)) ->
  exists data, pack marshal now ipd = Ok data /\
  (Z.of_nat (length data) < 2 ^ 32 ->
   exists r w P, newReaderFromBytes unmarshal data = Ok r /\ rinv r /\ data = Save marshal w /\
    winv w P (mapv (join x09) (store_all (rows_of (dIps ipd) bs))) /\ fits w /\ rMeta r = save_meta w /\
    rMeta r = meta_of now ipd (Z.of_nat (length (wNode w))) (Z.of_nat (length (body w))) /\
    rData r = body w /\ rNodeCount r = Z.of_nat (length (wNode w)) /\
    rFileSize r >= Z.of_nat (length (body w)) /\ rCont r = offset_of FieldContinentCode (covertFields (dFields ipd)) /\
    forall ip, valid_ip ip -> Query r [] ip =
      answer (dFields ipd) (vIpType (dVersion ipd)) (store_all (rows_of (dIps ipd) bs)) (addr ip)).
Proof.
  intros HR HC HF HJ. destruct (pack_winv now ipd bs (rows_net _ _ HR) HC) as [w [P [E [W [M S]]]]].
  exists (Save marshal w). unfold pack. rewrite E. cbn [bind]. split; [reflexivity|].
  intros Hsz.
  assert (length (Save marshal w) = 4 + length (marshal (save_meta w)) + length (body w))%nat as Ls.
  { unfold Save, body. rewrite !app_length, IntToBinaryBE_len32. lia. }
  assert (fits w) as Fit by (unfold fits; lia).
  destruct (open_packed w P _ W Fit marshal unmarshal) as [r [O [RI [Rm [Rd [Rn [Rf Rc]]]]]]].
  { rewrite S. pose proof (body_length w). apply HJ; lia. }
  { rewrite M. discriminate. }
  { rewrite M. cbn. destruct (dFields ipd); [congruence|discriminate]. }
  { lia. }
  exists r, w, P. split; [assumption|]. split; [assumption|]. split; [reflexivity|]. split; [assumption|]. split; [assumption|].
  rewrite M in Rc. cbn [meta_of mFields] in Rc.
  split; [assumption|]. split; [congruence|]. split; [assumption|]. split; [assumption|]. split; [assumption|]. split; [assumption|].
  intros ip V. unfold Query. rewrite QueryInternal_cache by (try assumption; intros ? ? Q; discriminate).
  rewrite QueryInternal_false.
  assert (mFields (rMeta r) = covertFields (dFields ipd)) as Mf by (rewrite Rm, S; reflexivity).
  assert (mLanguages (rMeta r) = [(str "CN", 0)]) as Ml by (rewrite Rm, S; reflexivity).
  destruct (answer_supported r (vIpType (dVersion ipd)) ip V) as [Sup Mk].
  { rewrite Rm, S. cbn. unfold ipVersion. reflexivity. }
  pose proof (query_nobody r (dFields ipd) Mf Ml Rc HF) as NB.
  unfold answer. destruct (holds_family (vIpType (dVersion ipd)) (addr ip)).
  - pose proof (find0_packed w P _ W Fit r ip RI Rd Rn Rf Sup) as F. rewrite mapv_lookup in F.
    destruct (lookup (store_all (rows_of (dIps ipd) bs)) (addr ip)) as [[b row]|] eqn:L.
    + destruct F as [node F]. rewrite F. cbn [bind]. rewrite Mk.
      assert (row_ok (mkRaw (mkNet [] []) row) b -> True) as _ by auto.
      unfold lookup in L. apply find_some in L as [I _]. apply store_all_in in I.
      destruct (rows_of_ok _ _ _ _ HR I) as [rr [_ [[_ R1 R2 R3] Er]]]. rewrite Er in R1, R2, R3.
      rewrite N.mod_small by (change (2 ^ 16)%N with 65536%N; assumption). rewrite Nat2N.id, firstn_all.
      unfold info_of. rewrite Ml. cbn [assoc]. rewrite bytes_eqb_refl.
      rewrite (decodeInfo_row r (dFields ipd) row Mf Rc R1 R2).
      destruct (length row <? length (dFields ipd))%nat; [reflexivity|]. cbn [bind].
      rewrite Mf, make_info_row. unfold row_info. rewrite !column_firstn. reflexivity.
    + rewrite F. cbn [bind]. rewrite <- NB. destruct (info_of r []); reflexivity.
  - assert (exists e, find0 r ip = Err e) as [e ->].
    { unfold find0. unfold supported in Sup. destruct (is_nil (to4 ip)); cbn [negb].
      - destruct (is_nil (to16 ip)); cbn [negb andb] in *; [eauto|]. rewrite Sup. eauto.
      - rewrite Sup. eauto. }
    cbn [bind]. rewrite <- NB. destruct (info_of r []); reflexivity.
Qed.
End Json.

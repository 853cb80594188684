(** Property theorems C21, C45, C46 (dumping ipdb files). *)
From Verif Require Import Base NetIP IpNet Spec IpNetProofs SplitProofs IpNetProofs2 Ipdb SpecIpdb SpecExport Export ExportProofs BuildProofs Bits.
From Verif Require Import TrieProofs WriterProofs ReaderProofs OpenProofs PackProofs PropsIpdb DumpProofs PropsExport.
Open Scope N_scope.

Lemma v4b_iff a : v4b a = true <-> is_v4 a.
Proof. unfold v4b, is_v4. rewrite andb_true_iff, N.leb_le, N.ltb_lt. reflexivity. Qed.
Lemma v4b_false_iff a : v4b a = false <-> ~ is_v4 a.
Proof. rewrite <- v4b_iff. destruct (v4b a); split; congruence. Qed.

Lemma findMap_len r ip lang n rec : valid_ip ip -> findMap r ip lang = Ok (n, rec) ->
  (exists b, net_is n b) -> length (nIP n) = if v4b (addr ip) then 4%nat else 16%nat.
Proof.
  intros V F [b Hn]. rewrite <- (ni_mask_len _ _ Hn). unfold findMap in F.
  destruct (find1 r ip lang) as [[ret m]| | |]; cbn [bind] in F; try discriminate. injection F as <- _. cbn [nMask nIP] in *.
  pose proof (ni_mask_len _ _ Hn) as ML. pose proof (ni_len _ _ Hn) as VL. unfold valid_ip in VL. cbn [nMask nIP] in *. rewrite <- ML in VL.
  rewrite is_nil_to4 in * by assumption. destruct (v4b (addr ip)) eqn:E; cbn [negb] in *.
  - rewrite to4_length in * by (apply is_nil_false; rewrite is_nil_to4 by assumption; rewrite E; reflexivity).
    unfold CIDRMask in *. destruct (_ && _)%bool; [rewrite mask_bytes_length; reflexivity|destruct VL; discriminate].
  - rewrite to16_length in * by assumption.
    unfold CIDRMask in *. destruct (_ && _)%bool; [rewrite mask_bytes_length; reflexivity|destruct VL; discriminate].
Qed.

Lemma findMap_v4_unsupported r ip lang n rec : valid_ip ip -> IpType (rMeta r) = 2%Z -> v4b (addr ip) = true ->
  findMap r ip lang <> Ok (n, rec).
Proof.
  intros V T E F. unfold findMap, find1 in F. destruct (assoc lang _); [|discriminate].
  assert (find0 r ip = Err ErrNoSupportIPv4) as Q; [|rewrite Q in F; discriminate].
  unfold find0. rewrite is_nil_to4, E by assumption. cbn [negb].
  unfold IpType in T. destruct (N.eqb_spec (mIPVersion (rMeta r)) 1); [discriminate|].
  destruct (N.eqb_spec (mIPVersion (rMeta r)) 2) as [E2|]; [|discriminate]. unfold HasIPv4. rewrite E2. reflexivity.
Qed.

Lemma findMap_finder_ok unmarshal data r lang : newReaderFromBytes unmarshal data = Ok r ->
  finder_ok (dump_family (IpType (rMeta r))) (fun ip => findMap r ip lang).
Proof.
  intros O.
  assert (forall ip, valid_ip ip -> fam_first (dump_family (IpType (rMeta r))) <= addr ip < fam_end (dump_family (IpType (rMeta r))) ->
    forall n rec, findMap r ip lang = Ok (n, rec) -> v4b (addr ip) = negb (IpType (rMeta r) =? 2)%Z) as G.
  { intros ip V R n rec F. unfold dump_family in R. destruct (Z.eqb_spec (IpType (rMeta r)) 2) as [T|T]; cbn [negb].
    - destruct (v4b (addr ip)) eqn:E; [|reflexivity]. exfalso. exact (findMap_v4_unsupported r ip lang n rec V T E F).
    - apply v4b_iff. exact R. }
  constructor.
  - intros ip n rec V R F. pose proof (G ip V R n rec F) as E.
    destruct (C16_findmap_network _ _ _ _ _ _ _ O V F) as [b [Hn [Ha [B _]]]].
    split; [|eauto]. rewrite (findMap_len r ip lang n rec V F) by eauto. rewrite E. unfold dump_family.
    destruct (IpType (rMeta r) =? 2)%Z; reflexivity.
  - intros ip ip' n n' rec rec' b b' a V V' R R' F F' Hn Hn' B B'.
    pose proof (G ip V R n rec F) as E. pose proof (G ip' V' R' n' rec' F') as E'.
    destruct (C16_findmap_network _ _ _ _ _ _ _ O V F) as [c [Hc [Hac [Bc K]]]].
    destruct (C16_findmap_network _ _ _ _ _ _ _ O V' F') as [c' [Hc' [Hac' [Bc' K']]]].
    rewrite <- (net_is_fun _ _ _ Hn Hc) in *. rewrite <- (net_is_fun _ _ _ Hn' Hc') in *.
    destruct (N.le_ge_cases (logsz b) (logsz b')) as [L|L].
    + pose proof (aligned_nested b b' a Hac Hac' B B' L (addr ip) Bc) as X.
      pose proof (K' ip V X ltac:(congruence)) as Q. congruence.
    + pose proof (aligned_nested b' b a Hac' Hac B' B L (addr ip') Bc') as X.
      pose proof (K ip' V' X ltac:(congruence)) as Q. congruence.
Qed.

Lemma common_nodup : NoDup (map fst CommonFieldsMap).
Proof. repeat constructor; cbn; intuition discriminate. Qed.

(* ------------------------------------------------------------------ *)
(** C45: whatever the ipdb file, a successful dump covers exactly IPv4 unless the
    file is declared IPv6-only; in particular a file of both families is dumped
    without its IPv6 part. *)
Theorem C45_dump_covers_one_family : forall unmarshal fuel data ept d, dump unmarshal fuel data ept = Ok d ->
  exists bs, Forall2 (fun r b => net_is (cidr r) b /\ aligned b) (dIps d) bs /\
    (vIpType (dVersion d) <> 2%Z -> tiles v4base bs (v4base + 2 ^ 32) /\
       Forall (fun r => length (nIP (cidr r)) = 4%nat) (dIps d)) /\
    (vIpType (dVersion d) = 2%Z -> tiles 0 bs (2 ^ 128)).
Proof.
  intros unmarshal fuel data ept d H. unfold dump in H.
  destruct (newReaderFromBytes unmarshal data) as [r| | |] eqn:O; cbn [bind] in H; try discriminate.
  destruct (BuildIPData _ _ _ _ _ _) as [[ofs rows]| | |] eqn:B; cbn [bind] in H; try discriminate. injection H as <-.
  cbn [dVersion dIps]. change (vIpType (version r)) with (IpType (rMeta r)).
  destruct (C19_success_covers _ _ _ _ (version r) _ _ _ common_nodup (findMap_finder_ok _ _ r (str "CN") O) B) as [_ [bs [T [F2 Ln]]]].
  change (vIpType (version r)) with (IpType (rMeta r)) in *.
  exists bs. split.
  - clear Ln B. assert (Forall aligned bs) as A.
    { revert T. generalize (fam_first (dump_family (IpType (rMeta r)))) as s. clear F2. induction bs as [|b bs IH]; intros s T; [constructor|].
      destruct T as [T1 [T2 T3]]. constructor; [assumption|]. eapply IH; eassumption. }
    clear T. induction F2 as [|x b rows bs H _ IH]; constructor; inversion A; subst.
    + split; [apply H|assumption].
    + apply IH. assumption.
  - unfold dump_family in *. destruct (Z.eqb_spec (IpType (rMeta r)) 2) as [E|E].
    + split; [contradiction|]. intros _. exact T.
    + split; [|contradiction]. intros _. split; [exact T|exact Ln].
Qed.
Print Assumptions C45_dump_covers_one_family.

(* ------------------------------------------------------------------ *)
(** ** Dumping what was packed *)

(** The exporter given to dump works by the rules rs (none without exporter). *)
Definition exports (ept : option Exporter) (rs : list rule) : Prop :=
  match ept with None => rs = [] | Some e => means e rs end.

Lemma exported_rules ept rs fields row ofs vs : exports ept rs -> ofs = out_fields CommonFieldsMap (covertFields fields) ept ->
  exported CommonFieldsMap ept ofs
    (field_map (covertFields fields) (firstn (length fields) (show_continent fields row))) vs ->
  length vs = length ofs /\ (NoDup ofs -> apply_rules ofs rs (map (dumped fields row) ofs) vs).
Proof.
  intros X -> H. assert (forall l, map (dumped fields row) l =
    map (field_value CommonFieldsMap (field_map (covertFields fields) (firstn (length fields) (show_continent fields row)))) l) as M.
  { intros l. apply map_ext. intros f. symmetry. apply field_value_dumped. }
  rewrite M. destruct ept as [e|]; cbn [exported exports out_fields] in *.
  - destruct (X CommonFieldsMap (field_map (covertFields fields) (firstn (length fields) (show_continent fields row)))) as [out [E1 [E2 E3]]].
    rewrite H in E1. injection E1 as <-. split; assumption.
  - subst. split; [apply map_length|]. intros _. constructor.
Qed.

Lemma ExtKeys_known fields : ExtKeys CommonFieldsMap (covertFields fields) = known_names fields.
Proof.
  unfold ExtKeys, known_names. change (covertFields fields) with (map covert1 fields).
  induction fields as [|f fs IH]; [reflexivity|]. cbn [map flat_map]. rewrite IH. f_equal. clear.
  rewrite common_columns_eq. unfold CommonFieldsMap. cbn [filter find snd fst map].
  repeat match goal with |- context [bytes_eqb (covert1 f) ?g] => rewrite (covert_pair _ g ltac:(unfold CommonFieldsMap; cbn [In]; eauto 20)) end.
  repeat match goal with |- context [in_array f ?l] => let E := fresh "E" in destruct (in_array f l) eqn:E;
    [apply in_array_iff in E; cbn [In] in E; destruct E as [<-|[<-|[]]]; reflexivity|] end.
  reflexivity.
Qed.

Section PackedDump.
Context (marshal : MetaData -> bytes) (unmarshal : bytes -> option MetaData) (now : Z) (ipd : IpData) (bs : list block)
        (ept : option Exporter) (rs : list rule).
Hypothesis HR : Forall2 row_ok (dIps ipd) bs.
Hypothesis HC : plain_columns (dFields ipd).
Hypothesis HF : dFields ipd <> [].
Hypothesis HJ : json_ok marshal unmarshal now ipd.
Hypothesis HE : exports ept rs.
Let m := store_all (combine bs (map fvals (dIps ipd))).
Let iptype := vIpType (dVersion ipd).
Let fam := dump_family iptype.

Lemma m_rows : m = store_all (rows_of (dIps ipd) bs).
Proof. reflexivity. Qed.

Definition covered (a : N) : Prop := exists b row, lookup m a = Some (b, row) /\ (length (dFields ipd) <= length row)%nat.

Lemma lookup_m a b row : lookup m a = Some (b, row) <-> In (b, row) m /\ in_block b a.
Proof.
  split.
  - intros L. unfold lookup in L. apply find_some in L as [I B]. cbn [fst] in B. apply in_blockb_iff in B. auto.
  - intros [I B]. unfold lookup. destruct (find (fun e => in_blockb (fst e) a) m) as [[b' r']|] eqn:F.
    + apply find_some in F as [I' B']. cbn [fst] in B'. apply in_blockb_iff in B'.
      destruct (m_unique now ipd bs HR HC b row b' r' a I I' B B') as [-> ->]. reflexivity.
    + exfalso. pose proof (find_none _ _ F _ I) as Q. cbn [fst] in Q. apply in_blockb_iff in B. congruence.
Qed.

Lemma m_block b row : In (b, row) m -> aligned b /\ logsz b < 128 /\ base b + 2 ^ logsz b <= 2 ^ 128.
Proof.
  intros I. destruct (m_row ipd bs HR b row I) as [_ [_ [_ [A [L [n Hn]]]]]]. split; [assumption|]. split; [assumption|].
  eapply block_in_128; eassumption.
Qed.

(** The IPv4 part of a block with an IPv4 address. *)
Lemma family_part_v4 a b row : is_v4 a -> In (b, row) m -> in_block b a ->
  forall x, in_block (family_part a b) x <-> in_block b x /\ v4base <= x < v4base + 2 ^ 32.
Proof.
  intros V I B x. destruct (m_row ipd bs HR b row I) as [_ [_ [_ [A [_ [n Hn]]]]]].
  unfold family_part. rewrite (proj2 (v4b_iff a) V). cbn [andb]. destruct (N.ltb_spec 32 (logsz b)) as [L|L].
  - assert (aligned (mkBlock v4base 32)) as A4 by reflexivity.
    assert (in_block (mkBlock v4base 32) a) as B4 by exact V.
    split; [|intros [_ Q]; exact Q]. intros X. split; [|exact X].
    exact (aligned_nested (mkBlock v4base 32) b a A4 A B4 B (N.lt_le_incl _ _ L) x X).
  - destruct (net_in_v4 n b Hn A L a V B) as [Q1 Q2].
    split; [|tauto]. intros X. split; [assumption|]. destruct X. alia.
Qed.

Lemma family_part_v6 a b : ~ is_v4 a -> family_part a b = b.
Proof. intros V. unfold family_part. apply v4b_false_iff in V. rewrite V. reflexivity. Qed.

(** From the rows found by findMap to the [dumps] relation. *)
Lemma rows_dumps r rows ds :
  mFields (rMeta r) = covertFields (dFields ipd) ->
  (forall ip, valid_ip ip -> if holds_family iptype (addr ip) then
        match lookup m (addr ip) with
        | Some (b, row) =>
            if (length row <? length (dFields ipd))%nat then findMap r ip (str "CN") = Err ErrDatabaseError
            else exists n, findMap r ip (str "CN") =
                   Ok (n, field_map (covertFields (dFields ipd)) (firstn (length (dFields ipd)) (show_continent (dFields ipd) row))) /\
                 net_is n (family_part (addr ip) b) /\ length (nIP n) = (if v4b (addr ip) then 4 else 16)%nat
        | None => findMap r ip (str "CN") = Err ErrDataNotExists
        end
      else findMap r ip (str "CN") = Err (if v4b (addr ip) then ErrNoSupportIPv4 else ErrNoSupportIPv6)) ->
  tiles (fam_first fam) ds (fam_end fam) ->
  Forall2 (row_at (fun ip => findMap r ip (str "CN"))
     (exported CommonFieldsMap ept (out_fields CommonFieldsMap (covertFields (dFields ipd)) ept))) rows ds ->
  forall d, dIps d = rows -> dFields d = out_fields CommonFieldsMap (covertFields (dFields ipd)) ept ->
  dumps (dFields ipd) m rs (fam_first fam) (fam_end fam) d.
Proof.
  intros Mf FM T F2 d Ed Ef. exists ds. split; [assumption|]. rewrite Ed. split.
  { clear - F2. induction F2 as [|x b rows ds H _ IH]; constructor; [apply H|assumption]. }
  intros a b row Ra L.
  assert (exists db, In db ds /\ in_block db a) as [db [Idb Bdb]] by (apply (proj2 (tiles_covers _ _ _ T)); assumption).
  assert (exists x, In (x, db) (combine rows ds) /\ row_at (fun ip => findMap r ip (str "CN"))
     (exported CommonFieldsMap ept (out_fields CommonFieldsMap (covertFields (dFields ipd)) ept)) x db) as [x [Ix Rx]].
  { clear - F2 Idb. induction F2 as [|y c rows ds H _ IH]; [destruct Idb|]. cbn [combine]. destruct Idb as [->|Idb].
    - exists y. split; [left; reflexivity|assumption].
    - destruct (IH Idb) as [x [I R]]. exists x. split; [right; assumption|assumption]. }
  destruct Rx as [Hn [ip [rec [V [Ea [Fi Ex]]]]]]. exists x, db. split; [assumption|]. split; [assumption|].
  pose proof (FM ip V) as Q.
  destruct (holds_family iptype (addr ip)) eqn:Hf; [|congruence].
  destruct (lookup m (addr ip)) as [[b' row']|] eqn:L'; [|congruence].
  destruct (length row' <? length (dFields ipd))%nat; [congruence|].
  destruct Q as [n [Q1 [Q2 Q3]]]. rewrite Fi in Q1. injection Q1 as <- ->.
  pose proof (net_is_fun _ _ _ Hn Q2) as Edb.
  apply lookup_m in L' as [I' B'].
  assert (fam_first fam <= base db < fam_end fam) as Rb.
  { destruct (tiles_covers _ _ _ T) as [_ C]. apply C. exists db. split; [assumption|]. unfold in_block. pose proof (pow_pos (logsz db)). alia. }
  assert (forall y, in_block db y <-> in_block b' y /\ fam_first fam <= y < fam_end fam) as Eq.
  { intros y. rewrite Edb. unfold fam, dump_family, holds_family in *. destruct (Z.eqb_spec iptype 2) as [E2|E2].
    - destruct (v4b (addr ip)) eqn:E4; [discriminate|]. rewrite family_part_v6 by (apply v4b_false_iff; assumption).
      split; [|tauto]. intros Y. split; [assumption|]. pose proof (m_block _ _ I'). destruct Y. cbn [fam6 fam_first fam_end]. alia.
    - apply (family_part_v4 _ _ row'); try assumption. unfold is_v4. rewrite Ea. exact Rb. }
  assert (b' = b /\ row' = row) as [-> ->].
  { apply lookup_m in L as [I B]. apply (m_unique now ipd bs HR HC b' row' b row a); try assumption. apply Eq. assumption. }
  split; [assumption|]. rewrite Ef. exact (exported_rules ept rs _ _ _ _ HE eq_refl Ex).
Qed.

Lemma iptype_norm : (if iptype =? 1 then 1 else if iptype =? 2 then 2 else 3)%Z = 2%Z <-> iptype = 2%Z.
Proof. destruct (Z.eqb_spec iptype 1), (Z.eqb_spec iptype 2); lia. Qed.

Lemma fam_norm : dump_family (if iptype =? 1 then 1 else if iptype =? 2 then 2 else 3)%Z = fam.
Proof.
  unfold fam, dump_family. pose proof iptype_norm as N.
  destruct (Z.eqb_spec (if iptype =? 1 then 1 else if iptype =? 2 then 2 else 3)%Z 2), (Z.eqb_spec iptype 2); try reflexivity; tauto.
Qed.

Lemma row_values_total fm fields : NoDup (map fst fm) ->
  forall info, exists vs, row_values fm ept (out_fields fm fields ept) info = Ok vs.
Proof. intros N info. destruct (row_values_exported fm ept fields info N) as [vs [Q _]]. eauto. Qed.

Lemma pack_dump_v4 : iptype <> 2%Z -> (forall a, is_v4 a -> covered a) ->
  exists data, pack marshal now ipd = Ok data /\
    ((Z.of_nat (length data) < 2 ^ 32)%Z -> exists fuel0 d, (forall fuel, (fuel0 <= fuel)%nat -> dump unmarshal fuel data ept = Ok d) /\
      dFields d = out_fields CommonFieldsMap (covertFields (dFields ipd)) ept /\
      dumps (dFields ipd) m rs v4base (v4base + 2 ^ 32) d).
Proof.
  intros NT Cov. destruct (findMap_packed marshal unmarshal now ipd bs HR HC HF HJ) as [data [E H]].
  exists data. split; [assumption|]. intros Hs. destruct (H Hs) as [r [O [Ty [Mf [_ FM]]]]]. clear H.
  fold iptype in Ty, FM. change (store_all (rows_of (dIps ipd) bs)) with m in FM.
  pose proof (findMap_finder_ok _ _ _ (str "CN") O) as FO. rewrite Ty, fam_norm in FO.
  assert (fam = fam4) as Ef by (unfold fam, dump_family; destruct (Z.eqb_spec iptype 2); [contradiction|reflexivity]).
  assert (finder_total fam (fun ip => findMap r ip (str "CN"))) as FT.
  { intros ip V R. rewrite Ef in R. pose proof (FM ip V) as Q.
    assert (is_v4 (addr ip)) as V4 by exact R. pose proof (proj2 (v4b_iff _) V4) as V4b.
    assert (holds_family iptype (addr ip) = true) as Hf.
    { unfold holds_family. rewrite V4b. destruct (Z.eqb_spec iptype 2); [contradiction|reflexivity]. }
    rewrite Hf in Q. destruct (Cov _ V4) as [b [row [L Lr]]]. rewrite L in Q.
    destruct (Nat.ltb_spec (length row) (length (dFields ipd))); [lia|]. destruct Q as [n [Q _]]. eauto. }
  destruct (C19_dump_covers CommonFieldsMap (mFields (rMeta r)) ept (version r) (fun ip => findMap r ip (str "CN")) common_nodup)
    as [fuel0 [rows [ds [B [T F2]]]]].
  { change (vIpType (version r)) with (IpType (rMeta r)). rewrite Ty, fam_norm. exact FO. }
  { change (vIpType (version r)) with (IpType (rMeta r)). rewrite Ty, fam_norm. exact FT. }
  change (vIpType (version r)) with (IpType (rMeta r)) in T. rewrite Ty, fam_norm in T. rewrite Mf in F2.
  set (d := mkData (out_fields CommonFieldsMap (covertFields (dFields ipd)) ept) (version r) rows).
  exists fuel0, d. split; [|split; [reflexivity|]].
  - intros fuel L. unfold dump. rewrite O. cbn [bind]. rewrite (B fuel L). cbn [bind]. unfold d. rewrite Mf. reflexivity.
  - pose proof (rows_dumps r rows ds Mf FM T F2 d eq_refl eq_refl) as D. rewrite Ef in D. exact D.
Qed.

(** The IPv6-only case. *)
Definition block_at (a : N) : Prop := exists b row, In (b, row) m /\ base b = a.

Section V6.
Hypothesis T2 : iptype = 2%Z.
Hypothesis Cov : forall a, a < 2 ^ 128 -> covered a.

Lemma no_v4_starts : ~ block_at v4base -> forall b row, In (b, row) m -> ~ is_v4 (base b).
Proof.
  intros NB b row I V. destruct (Cov v4base) as [c [crow [L _]]]; [reflexivity|].
  apply lookup_m in L as [Ic Bc]. destruct (m_block _ _ Ic) as [Ac _].
  assert (base c <> v4base) as Ne by (intros Q; apply NB; exists c, crow; auto).
  assert (is_v4 v4base) as V4 by (split; reflexivity).
  destruct (N.le_gt_cases (logsz c) 32) as [Le|Gt].
  - destruct (m_row ipd bs HR c crow Ic) as [_ [_ [_ [_ [_ [n Hn]]]]]].
    destruct (net_in_v4 n c Hn Ac Le v4base V4 Bc) as [Q _]. destruct Bc. lia.
  - assert (in_block c (base b)) as X.
    { exact (aligned_nested (mkBlock v4base 32) c v4base eq_refl Ac V4 Bc (N.lt_le_incl _ _ Gt) (base b) V). }
    assert (in_block b (base b)) as Xb by (unfold in_block; pose proof (pow_pos (logsz b)); alia).
    destruct (m_unique now ipd bs HR HC b row c crow (base b) I Ic Xb X) as [-> _]. destruct V, Bc. lia.
Qed.

Lemma next_block b row : In (b, row) m -> base b + 2 ^ logsz b <> 2 ^ 128 -> block_at (base b + 2 ^ logsz b).
Proof.
  intros I Ne. destruct (m_block _ _ I) as [A [_ Le]].
  destruct (Cov (base b + 2 ^ logsz b)) as [c [crow [L _]]]; [alia|]. apply lookup_m in L as [Ic Bc].
  exists c, crow. split; [assumption|]. destruct (m_block _ _ Ic) as [Ac _].
  destruct (N.eq_dec (base c) (base b + 2 ^ logsz b)) as [|N]; [assumption|exfalso].
  pose proof (pow_pos (logsz b)) as P.
  assert (in_block c (base b + 2 ^ logsz b - 1)) as X1 by (destruct Bc; unfold in_block; alia).
  assert (in_block b (base b + 2 ^ logsz b - 1)) as X2 by (unfold in_block; alia).
  destruct (m_unique now ipd bs HR HC b row c crow _ I Ic X2 X1) as [-> _]. destruct Bc. alia.
Qed.

Lemma first_block : block_at 0.
Proof.
  destruct (Cov 0) as [c [crow [L _]]]; [reflexivity|]. apply lookup_m in L as [Ic Bc]. exists c, crow. split; [assumption|].
  destruct Bc. lia.
Qed.

Lemma holds6 a : holds_family iptype a = negb (v4b a).
Proof. unfold holds_family. rewrite T2. destruct (v4b a); reflexivity. Qed.

Lemma pack_dump_v6 : exists data, pack marshal now ipd = Ok data /\
    ((Z.of_nat (length data) < 2 ^ 32)%Z ->
      (block_at v4base -> exists fuel0, forall fuel, (fuel0 <= fuel)%nat -> dump unmarshal fuel data ept = Err ErrNoSupportIPv4) /\
      (~ block_at v4base -> exists fuel0 d, (forall fuel, (fuel0 <= fuel)%nat -> dump unmarshal fuel data ept = Ok d) /\
        dFields d = out_fields CommonFieldsMap (covertFields (dFields ipd)) ept /\
        dumps (dFields ipd) m rs 0 (2 ^ 128) d)).
Proof.
  destruct (findMap_packed marshal unmarshal now ipd bs HR HC HF HJ) as [data [E H]].
  exists data. split; [assumption|]. intros Hs. destruct (H Hs) as [r [O [Ty [Mf [_ FM]]]]]. clear H.
  fold iptype in Ty, FM. change (store_all (rows_of (dIps ipd) bs)) with m in FM.
  assert (fam = fam6) as Ef by (unfold fam, dump_family; rewrite T2; reflexivity).
  assert (IsIpV6 (version r) = true) as I6.
  { unfold IsIpV6. change (vIpType (version r)) with (IpType (rMeta r)). rewrite Ty, T2. reflexivity. }
  assert (forall ip b row, valid_ip ip -> ~ is_v4 (addr ip) -> In (b, row) m -> base b = addr ip ->
     exists n rec, findMap r ip (str "CN") = Ok (n, rec) /\ length (nIP n) = 16%nat /\ net_is n b /\ aligned b) as Step.
  { intros ip b row V N4 I Eb. pose proof (FM ip V) as Q. pose proof N4 as N4b. apply v4b_false_iff in N4b. rewrite holds6, N4b in Q. cbn [negb] in Q.
    assert (in_block b (addr ip)) as B by (unfold in_block; rewrite Eb; pose proof (pow_pos (logsz b)); alia).
    assert (lookup m (addr ip) = Some (b, row)) as L by (apply lookup_m; auto). rewrite L in Q.
    destruct (m_block _ _ I) as [Ab [_ Le]]. 
    destruct (Cov (addr ip)) as [c [crow [Lc Lr]]]; [apply addr_bound; assumption|]. rewrite L in Lc. injection Lc as <- <-.
    destruct (Nat.ltb_spec (length row) (length (dFields ipd))); [lia|]. destruct Q as [n [Q1 [Q2 Q3]]].
    rewrite family_part_v6 in Q2 by assumption. eauto 10. }
  set (values := row_values CommonFieldsMap ept (out_fields CommonFieldsMap (mFields (rMeta r)) ept)).
  pose proof (row_values_total CommonFieldsMap (mFields (rMeta r)) common_nodup) as HV. fold values in HV.
  split.
  - intros [bv [rv [Iv Ev]]].
    assert (forall k ip, valid_ip ip -> block_at (addr ip) -> addr ip + k = v4base ->
      exists ip', visits (fun ip => findMap r ip (str "CN")) values ip ip' /\ valid_ip ip' /\ addr ip' = v4base) as Reach.
    { induction k as [k IH] using (well_founded_induction N.lt_wf_0). intros ip V [b [row [I Eb]]] Ek.
      destruct (N.eq_dec k 0) as [->|Nk]; [exists ip; split; [constructor|]; split; [assumption|lia]|].
      assert (~ is_v4 (addr ip)) as N4 by (unfold is_v4; lia).
      destruct (Step ip b row V N4 I Eb) as [n [rec [F [Ln [Hn Ha]]]]].
      destruct (net_step fam6 (or_intror eq_refl) n b Hn Ha Ln) as [last [E1 [_ [_ C]]]].
      pose proof (pow_pos (logsz b)) as P.
      assert (base b + 2 ^ logsz b <= v4base) as Le.
      { destruct (N.le_gt_cases (base b + 2 ^ logsz b) v4base) as [|Gt]; [assumption|exfalso].
        assert (in_block b v4base) as X1 by (unfold in_block; alia).
        assert (in_block bv v4base) as X2 by (unfold in_block; pose proof (pow_pos (logsz bv)); alia).
        destruct (m_unique now ipd bs HR HC b row bv rv v4base I Iv X1 X2) as [-> _]. lia. }
      destruct (IsAllMask last) eqn:Am; [exfalso; cbn [fam6 fam_end] in C; rewrite C in Le; vm_compute in Le; congruence|].
      destruct C as [Lt [next [E2 [Vn En]]]].
      destruct (IH (v4base - addr next) ltac:(alia) next Vn) as [ip' [Vis X]].
      { rewrite En. apply (next_block b row I). cbn [fam6 fam_end] in Lt. alia. }
      { alia. }
      destruct (HV rec) as [vs Hvs].
      exists ip'. split; [|assumption]. eapply visits_trans; [|exact Vis].
      eapply v_next; [constructor|exact F|exact Hvs|exact E1|exact Am|exact E2]. }
    destruct (Reach v4base IPv6zero) as [ip' [Vis [V' E']]]; [right; reflexivity|exact first_block|reflexivity|].
    assert (findMap r ip' (str "CN") = Err ErrNoSupportIPv4) as Fe.
    { pose proof (FM ip' V') as Q. assert (v4b (addr ip') = true) as Q4 by (rewrite E'; reflexivity). rewrite holds6, Q4 in Q. exact Q. }
    destruct (visits_err _ _ _ _ _ Vis Fe) as [fuel0 K]. exists fuel0. intros fuel L.
    unfold dump. rewrite O. cbn [bind]. unfold BuildIPData. rewrite I6. fold values. rewrite K by assumption. reflexivity.
  - intros NB.
    set (St := fun a => ~ is_v4 a /\ block_at a).
    assert (forall ip, valid_ip ip -> St (addr ip) -> exists n rec b, findMap r ip (str "CN") = Ok (n, rec) /\
      length (nIP n) = fam_len fam /\ net_is n b /\ aligned b /\ base b = addr ip /\
      (addr ip + 2 ^ logsz b <> fam_end fam -> St (addr ip + 2 ^ logsz b))) as HS.
    { intros ip V [N4 [b [row [I Eb]]]]. destruct (Step ip b row V N4 I Eb) as [n [rec [F [Ln [Hn Ha]]]]].
      exists n, rec, b. rewrite Ef. split; [assumption|]. split; [assumption|]. split; [assumption|]. split; [assumption|]. split; [assumption|].
      rewrite <- Eb. intros Ne. destruct (next_block b row I Ne) as [c [crow [Ic Ec]]]. rewrite <- Ec.
      split; [eapply no_v4_starts; eassumption|]. exists c, crow. auto. }
    destruct (build_tiles (fun ip => findMap r ip (str "CN")) values fam (or_intror Ef) HV St HS IPv6zero) as [fuel0 [rows [ds [B [F2 T]]]]].
    { right; reflexivity. }
    { split; [vm_compute; intuition discriminate|exact first_block]. }
    set (d := mkData (out_fields CommonFieldsMap (covertFields (dFields ipd)) ept) (version r) rows).
    exists fuel0, d. split; [|split; [reflexivity|]].
    + intros fuel L. unfold dump. rewrite O. cbn [bind]. unfold BuildIPData. rewrite I6. fold values.
      rewrite (build_mono _ _ _ _ _ _ L B). cbn [bind]. unfold d. rewrite Mf. reflexivity.
    + pose proof (rows_dumps r rows ds Mf FM) as D. rewrite Ef in D. rewrite Ef in T. apply D; [exact T| |reflexivity|reflexivity].
      clear - F2 Mf. unfold values in F2. rewrite Mf in F2. induction F2 as [|x b rows ds H _ IH]; constructor; [|assumption].
      destruct H as [H1 [_ [_ [ip [rec [H2 [H3 [H4 H5]]]]]]]]. split; [assumption|]. exists ip, rec. repeat split; try assumption.
      destruct (row_values_exported CommonFieldsMap ept (covertFields (dFields ipd)) rec common_nodup) as [vs [Q X]]. rewrite Q in H5. injection H5 as <-. assumption.
Qed.
End V6.
End PackedDump.

(* ------------------------------------------------------------------ *)
(** C21: packing rows that cover IPv4 and dumping gives the same partition and values. *)
Theorem C21_pack_dump : forall marshal unmarshal now ipd bs ept rs,
  Forall2 row_ok (dIps ipd) bs -> plain_columns (dFields ipd) -> dFields ipd <> [] -> json_ok marshal unmarshal now ipd ->
  exports ept rs -> vIpType (dVersion ipd) <> 2%Z ->
  (forall a, is_v4 a -> exists b row, lookup (store_all (combine bs (map fvals (dIps ipd)))) a = Some (b, row) /\
                                      (length (dFields ipd) <= length row)%nat) ->
  exists data, pack marshal now ipd = Ok data /\
    ((Z.of_nat (length data) < 2 ^ 32)%Z ->
     exists fuel0 d, (forall fuel, (fuel0 <= fuel)%nat -> dump unmarshal fuel data ept = Ok d) /\
       dFields d = match ept with Some e => eFields e | None => known_names (dFields ipd) end /\
       dumps (dFields ipd) (store_all (combine bs (map fvals (dIps ipd)))) rs v4base (v4base + 2 ^ 32) d).
Proof.
  intros marshal unmarshal now ipd bs ept rs HR HC HF HJ HE T Cov.
  destruct (pack_dump_v4 marshal unmarshal now ipd bs ept rs HR HC HF HJ HE T Cov) as [data [E H]].
  exists data. split; [assumption|]. intros Hs. destruct (H Hs) as [fuel0 [d [D1 [D2 D3]]]]. exists fuel0, d.
  split; [assumption|]. split; [|assumption]. rewrite D2. destruct ept; [reflexivity|]. apply ExtKeys_known.
Qed.
Print Assumptions C21_pack_dump.

(** C21 for disjoint rows, address by address. *)
Theorem C21_pack_dump_partition : forall marshal unmarshal now ipd bs ept rs,
  Forall2 row_ok (dIps ipd) bs -> plain_columns (dFields ipd) -> dFields ipd <> [] -> json_ok marshal unmarshal now ipd ->
  exports ept rs -> vIpType (dVersion ipd) <> 2%Z -> disjoint bs ->
  (forall a, is_v4 a -> exists b, In b bs /\ in_block b a) ->
  Forall (fun r => length (fvals r) = length (dFields ipd)) (dIps ipd) ->
  exists data, pack marshal now ipd = Ok data /\
    ((Z.of_nat (length data) < 2 ^ 32)%Z ->
     exists fuel0 d ds, (forall fuel, (fuel0 <= fuel)%nat -> dump unmarshal fuel data ept = Ok d) /\
       dFields d = match ept with Some e => eFields e | None => known_names (dFields ipd) end /\
       tiles v4base ds (v4base + 2 ^ 32) /\ Forall2 (fun r b => net_is (cidr r) b) (dIps d) ds /\
       forall i b r a, nth_error bs i = Some b -> nth_error (dIps ipd) i = Some r -> is_v4 a -> in_block b a ->
         exists dr db, In (dr, db) (combine (dIps d) ds) /\ in_block db a /\
           (forall x, in_block db x <-> in_block b x /\ is_v4 x) /\ length (fvals dr) = length (dFields d) /\
           (NoDup (dFields d) -> apply_rules (dFields d) rs (map (dumped (dFields ipd) (fvals r)) (dFields d)) (fvals dr))).
Proof.
  intros marshal unmarshal now ipd bs ept rs HR HC HF HJ HE T Dj Cov Len.
  set (m := store_all (combine bs (map fvals (dIps ipd)))).
  assert (length bs = length (map fvals (dIps ipd))) as Lb by (rewrite map_length; symmetry; apply (Forall2_length HR)).
  assert (map fst (combine bs (map fvals (dIps ipd))) = bs) as Mf.
  { clear - Lb. revert Lb. generalize (map fvals (dIps ipd)) as l. induction bs as [|b bs IH]; intros [|v l] Lb; try discriminate; [reflexivity|].
    cbn [combine map fst]. f_equal. apply IH. injection Lb as Lb. assumption. }
  assert (forall e, In e m <-> In e (combine bs (map fvals (dIps ipd)))) as Im.
  { apply store_all_disjoint. rewrite Mf. assumption. }
  assert (forall i b r, nth_error bs i = Some b -> nth_error (dIps ipd) i = Some r -> In (b, fvals r) m) as Ir.
  { intros i b r Hb Hr. apply Im. clear - Hb Hr. revert i Hb Hr. generalize (dIps ipd) as l. 
    induction bs as [|c bs IH]; intros [|x l] [|i] Hb Hr; try discriminate; cbn [map combine nth_error] in *.
    - injection Hb as ->. injection Hr as ->. left. reflexivity.
    - right. eapply IH; eassumption. }
  assert (forall a, is_v4 a -> exists b row, lookup m a = Some (b, row) /\ (length (dFields ipd) <= length row)%nat) as C.
  { intros a V. destruct (Cov a V) as [b [Ib Bb]]. apply In_nth_error in Ib as [i Hb].
    assert (exists r, nth_error (dIps ipd) i = Some r) as [r Hr].
    { destruct (nth_error (dIps ipd) i) eqn:Q; [eauto|]. apply nth_error_None in Q. rewrite map_length in Lb.
      assert (i < length bs)%nat by (apply nth_error_Some; congruence). lia. }
    exists b, (fvals r). split; [apply (lookup_m now ipd bs HR HC); eauto|].
    rewrite Forall_forall in Len. rewrite (Len r) by (eapply nth_error_In; eassumption). lia. }
  destruct (C21_pack_dump marshal unmarshal now ipd bs ept rs HR HC HF HJ HE T C) as [data [E H]].
  exists data. split; [assumption|]. intros Hs. destruct (H Hs) as [fuel0 [d [D1 [D2 [ds [D3 [D4 D5]]]]]]].
  exists fuel0, d, ds. split; [assumption|]. split; [assumption|]. split; [assumption|]. split; [assumption|].
  intros i b r a Hb Hr V B. apply (D5 a b (fvals r)); [exact V|]. apply (lookup_m now ipd bs HR HC). split; [|assumption]. eapply Ir; eassumption.
Qed.
Print Assumptions C21_pack_dump_partition.

(* ------------------------------------------------------------------ *)
(** C46: dump of a complete IPv6-only database. *)
Theorem C46_ipv6_dump : forall marshal unmarshal now ipd bs ept rs,
  Forall2 row_ok (dIps ipd) bs -> plain_columns (dFields ipd) -> dFields ipd <> [] -> json_ok marshal unmarshal now ipd ->
  exports ept rs -> vIpType (dVersion ipd) = 2%Z ->
  (forall a, a < 2 ^ 128 -> exists b row, lookup (store_all (combine bs (map fvals (dIps ipd)))) a = Some (b, row) /\
                                      (length (dFields ipd) <= length row)%nat) ->
  exists data, pack marshal now ipd = Ok data /\
    ((Z.of_nat (length data) < 2 ^ 32)%Z ->
      ((exists b row, In (b, row) (store_all (combine bs (map fvals (dIps ipd)))) /\ base b = v4base) ->
        exists fuel0, forall fuel, (fuel0 <= fuel)%nat -> dump unmarshal fuel data ept = Err ErrNoSupportIPv4) /\
      ((forall b row, In (b, row) (store_all (combine bs (map fvals (dIps ipd)))) -> base b <> v4base) ->
        exists fuel0 d, (forall fuel, (fuel0 <= fuel)%nat -> dump unmarshal fuel data ept = Ok d) /\
         dFields d = match ept with Some e => eFields e | None => known_names (dFields ipd) end /\
         dumps (dFields ipd) (store_all (combine bs (map fvals (dIps ipd)))) rs 0 (2 ^ 128) d)).
Proof.
  intros marshal unmarshal now ipd bs ept rs HR HC HF HJ HE T Cov.
  destruct (pack_dump_v6 marshal unmarshal now ipd bs ept rs HR HC HF HJ HE T Cov) as [data [E H]].
  exists data. split; [assumption|]. intros Hs. destruct (H Hs) as [H1 H2]. split; [exact H1|].
  intros NB. destruct H2 as [fuel0 [d [D1 [D2 D3]]]]; [intros [b [row [I Q]]]; exact (NB b row I Q)|]. exists fuel0, d.
  split; [assumption|]. split; [|assumption]. rewrite D2. destruct ept; [reflexivity|]. apply ExtKeys_known.
Qed.
Print Assumptions C46_ipv6_dump.

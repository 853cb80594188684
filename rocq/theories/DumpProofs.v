(** Dumping a packed ipdb. *)
From Verif Require Import Base NetIP IpNet Spec IpNetProofs SplitProofs IpNetProofs2 Ipdb SpecIpdb SpecExport Export ExportProofs BuildProofs Bits.
From Verif Require Import TrieProofs WriterProofs ReaderProofs OpenProofs PackProofs PropsIpdb.
Open Scope Z_scope.

Lemma assoc_rev_colc name l : match assoc name (rev l) with Some v => v | None => [] end = colc name l.
Proof.
  induction l as [|[f v] l IH] using rev_ind; [reflexivity|].
  rewrite rev_app_distr, colc_snoc. cbn [rev app assoc]. destruct (bytes_eqb f name); [reflexivity|assumption].
Qed.

(** The table in the specification is the one of the code. *)
Lemma common_columns_eq : common_columns = CommonFieldsMap.
Proof. reflexivity. Qed.

Lemma covert_pair f g : In (f, g) CommonFieldsMap -> forall x, bytes_eqb (covert1 x) g = in_array x [f; g].
Proof.
  intros I. unfold CommonFieldsMap in I. cbn [In] in I.
  repeat (destruct I as [I|I]; [injection I as <- <-; covert_solve|]). destruct I.
Qed.
Lemma covert_empty x : bytes_eqb (covert1 x) [] = in_array x [[]].
Proof. revert x. covert_solve. Qed.

Lemma assoc_in {V} k (m : list (bytes * V)) v : assoc k m = Some v -> In (k, v) m.
Proof.
  induction m as [|[k' v'] m IH]; cbn [assoc]; [discriminate|].
  destruct (bytes_eqb_spec k' k) as [->|N]; [intros E; injection E as <-; left; reflexivity|]. right. auto.
Qed.

Lemma field_value_dumped fields row f :
  field_value CommonFieldsMap (field_map (covertFields fields) (firstn (length fields) (show_continent fields row))) f
  = dumped fields row f.
Proof.
  unfold field_value, dumped, field_map. rewrite assoc_rev_colc, common_columns_eq.
  change (covertFields fields) with (map covert1 fields).
  destruct (assoc f CommonFieldsMap) as [g|] eqn:E.
  - rewrite (covert1_names g [f; g]) by (apply covert_pair, assoc_in; assumption). apply column_firstn.
  - rewrite (covert1_names [] [[]]) by apply covert_empty. apply column_firstn.
Qed.

(** findMap on a packed file. *)
Section Packed.
Context (marshal : MetaData -> bytes) (unmarshal : bytes -> option MetaData) (now : Z) (ipd : IpData) (bs : list block).
Hypothesis HR : Forall2 row_ok (dIps ipd) bs.
Hypothesis HC : plain_columns (dFields ipd).
Hypothesis HF : dFields ipd <> [].
Hypothesis HJ : json_ok marshal unmarshal now ipd.
Let m := store_all (rows_of (dIps ipd) bs).

Lemma m_row b row : In (b, row) m -> row <> [] /\ Forall (no_byte x09) row /\ (N.of_nat (length (join x09 row)) < 65536)%N /\
  aligned b /\ (logsz b < 128)%N /\ exists n, net_is n b.
Proof.
  intros I. apply store_all_in in I. destruct (rows_of_ok _ _ _ _ HR I) as [rr [_ [[[N1 N2 N3] R1 R2 R3] Er]]].
  rewrite Er in R1, R2, R3. eauto 10.
Qed.

Lemma net_in_v4 n b : net_is n b -> aligned b -> (logsz b <= 32)%N -> forall a, (v4base <= a < v4base + 2 ^ 32)%N -> in_block b a ->
  (v4base <= base b)%N /\ (base b + 2 ^ logsz b <= v4base + 2 ^ 32)%N.
Proof.
  intros Hn Ha L a Va [B1 B2]. unfold aligned in Ha.
  assert (v4base = (0xffff * 2 ^ (32 - logsz b)) * 2 ^ logsz b)%N as Ev.
  { rewrite <- N.mul_assoc, <- N.pow_add_r. unfold v4base. f_equal. f_equal. flia. }
  assert (2 ^ 32 = 2 ^ (32 - logsz b) * 2 ^ logsz b)%N as Ep.
  { rewrite <- N.pow_add_r. f_equal. flia. }
  pose proof (pow_pos (logsz b)) as P. set (K := (2 ^ logsz b)%N) in *. set (Q := (2 ^ (32 - logsz b))%N) in *. clearbody K Q.
  pose proof (N.div_mod (base b) K ltac:(lia)) as D. rewrite Ha in D. set (q := (base b / K)%N) in *. clearbody q.
  rewrite Ev, Ep in *. clear Ev Ep Ha. assert (base b = K * q)%N as E by lia. rewrite E in *.
  split; [|]; [assert (0xffff * Q < q + 1)%N by nia; nia|assert (q < 0x10000 * Q)%N by nia; nia].
Qed.

Lemma block_in_128 n b : net_is n b -> aligned b -> (base b + 2 ^ logsz b <= 2 ^ 128)%N.
Proof.
  intros Hn Ha. destruct (LastIP_aligned n b Hn Ha) as [l [_ [L E]]].
  assert (valid_ip l) as V by (pose proof (ni_len _ _ Hn) as V; unfold valid_ip in *; rewrite L; assumption).
  pose proof (addr_bound l V) as B. pose proof (pow_pos (logsz b)). alia.
Qed.

Lemma findMap_packed : exists data, pack marshal now ipd = Ok data /\
  (Z.of_nat (length data) < 2 ^ 32 ->
   exists r, newReaderFromBytes unmarshal data = Ok r /\ IpType (rMeta r) = (if vIpType (dVersion ipd) =? 1 then 1 else if vIpType (dVersion ipd) =? 2 then 2 else 3) /\
    mFields (rMeta r) = covertFields (dFields ipd) /\ rMeta r = meta_of now ipd (mNodeCount (rMeta r)) (mTotalSize (rMeta r)) /\
    forall ip, valid_ip ip ->
      if holds_family (vIpType (dVersion ipd)) (addr ip) then
        match lookup m (addr ip) with
        | Some (b, row) =>
            if (length row <? length (dFields ipd))%nat then findMap r ip (str "CN") = Err ErrDatabaseError
            else exists n, findMap r ip (str "CN") =
                   Ok (n, field_map (covertFields (dFields ipd)) (firstn (length (dFields ipd)) (show_continent (dFields ipd) row))) /\
                 net_is n (family_part (addr ip) b) /\ length (nIP n) = (if v4b (addr ip) then 4 else 16)%nat
        | None => findMap r ip (str "CN") = Err ErrDataNotExists
        end
      else findMap r ip (str "CN") = Err (if v4b (addr ip) then ErrNoSupportIPv4 else ErrNoSupportIPv6)).
Proof.
  destruct (pack_query marshal unmarshal now ipd bs HR HC HF HJ) as [data [E H]]. exists data. split; [assumption|].
  intros Hs. destruct (H Hs) as [r [w [P [O [RI [_ [W [Fit [Rms [Rm [Rd [Rn [Rf [Rc _]]]]]]]]]]]]]]. exists r. split; [assumption|].
  fold m in W.
  assert (mFields (rMeta r) = covertFields (dFields ipd)) as Mf by (rewrite Rm; reflexivity).
  assert (mLanguages (rMeta r) = [(str "CN", 0)]) as Ml by (rewrite Rm; reflexivity).
  split.
  { rewrite Rm. unfold IpType, meta_of, ipVersion. cbn [mIPVersion].
    destruct (_ =? 1); [reflexivity|]. destruct (_ =? 2); reflexivity. }
  split; [assumption|]. split; [rewrite Rm at 1; rewrite Rm; reflexivity|].
  intros ip V.
  destruct (answer_supported r (vIpType (dVersion ipd)) ip V) as [Sup Mk].
  { rewrite Rm. reflexivity. }
  unfold findMap, find1. rewrite Ml. cbn [assoc]. rewrite bytes_eqb_refl.
  destruct (holds_family (vIpType (dVersion ipd)) (addr ip)) eqn:HFm.
  - pose proof (find0_packed w P _ W Fit r ip RI Rd Rn Rf Sup) as F. rewrite mapv_lookup in F.
    destruct (lookup m (addr ip)) as [[b row]|] eqn:L.
    + destruct F as [node F]. rewrite F. cbn [bind].
      assert (In (b, row) m /\ in_block b (addr ip)) as [I B].
      { unfold lookup in L. apply find_some in L as [I B]. cbn [fst] in B. apply in_blockb_iff in B. auto. }
      destruct (m_row b row I) as [R1 [R2 [R3 [Ab [Lb [nn Nn]]]]]].
      rewrite N.mod_small by (change (2 ^ 16)%N with 65536%N; assumption). rewrite Nat2N.id, firstn_all.
      rewrite (decodeInfo_row r (dFields ipd) row Mf Rc R1 R2).
      destruct (length row <? length (dFields ipd))%nat; [reflexivity|]. cbn [bind]. rewrite Mf.
      eexists. split; [reflexivity|].
      change (net_is (IpNet ip (Z.of_nat (mask_for ip b))) (family_part (addr ip) b) /\
              length (nIP (IpNet ip (Z.of_nat (mask_for ip b)))) = (if v4b (addr ip) then 4 else 16)%nat).
      pose proof (is_nil_to4 ip V) as E4.
      assert ((mask_for ip b <= (if is_nil (to4 ip) then 128 else 32))%nat) as Lm.
      { unfold mask_for. destruct (is_nil (to4 ip)); lia. }
      destruct (IpNet_spec ip (mask_for ip b) V Lm) as [k [Ek Hn]].
      assert (length (nIP (IpNet ip (Z.of_nat (mask_for ip b)))) = (if v4b (addr ip) then 4 else 16)%nat) as Ln.
      { pose proof (ni_mask_len _ _ Hn) as A1. rewrite <- A1. unfold IpNet. cbn [nMask]. rewrite E4.
        unfold mask_for. rewrite E4. destruct (v4b (addr ip)) eqn:Ev; cbn [negb].
        - rewrite to4_length by (apply is_nil_false; rewrite E4; reflexivity).
          rewrite CIDRMask_ok by (auto || lia). apply mask_bytes_length.
        - rewrite to16_length by assumption.
          rewrite CIDRMask_ok by (auto || lia). apply mask_bytes_length. }
      split; [|assumption].
      assert (mkBlock (addr ip / 2 ^ k * 2 ^ k) k = family_part (addr ip) b) as <-; [|assumption].
      unfold mask_for in Ek. rewrite E4 in Ek. unfold family_part. destruct (v4b (addr ip)) eqn:Ev; cbn [negb andb] in *.
      * apply andb_true_iff in Ev as [V1 V2]. apply N.leb_le in V1. apply N.ltb_lt in V2.
        destruct (N.ltb_spec 32 (logsz b)) as [Lt|Ge].
        -- assert (k = 32)%N as -> by lia. f_equal. 
           assert (addr ip / 2 ^ 32 = 0xffff)%N as ->.
           { symmetry. apply N.div_unique with (r := (addr ip - v4base)%N); unfold v4base in *; alia. }
           reflexivity.
        -- assert (k = logsz b)%N as -> by lia. rewrite (proj1 (in_block_floor (base b) (addr ip) (logsz b))).
           ++ destruct b as [bb bl]. cbn [base logsz]. f_equal. unfold aligned in Ab. cbn [base logsz] in Ab.
              pose proof (N.div_mod bb (2 ^ bl) ltac:(pose proof (pow_pos bl); lia)) as D. rewrite Ab in D.
              rewrite N.mul_comm. clear - D. alia.
           ++ unfold aligned in Ab. pose proof (N.div_mod (base b) (2 ^ logsz b) ltac:(pose proof (pow_pos (logsz b)); lia)) as D.
              rewrite Ab in D. assert (base b / 2 ^ logsz b * 2 ^ logsz b = base b)%N as -> by (rewrite N.mul_comm; clear - D; alia).
              destruct b; exact B.
      * assert (k = logsz b)%N as -> by lia. rewrite (proj1 (in_block_floor (base b) (addr ip) (logsz b))).
        -- destruct b as [bb bl]. cbn [base logsz]. f_equal. unfold aligned in Ab. cbn [base logsz] in Ab.
           pose proof (N.div_mod bb (2 ^ bl) ltac:(pose proof (pow_pos bl); lia)) as D. rewrite Ab in D.
           rewrite N.mul_comm. clear - D. alia.
        -- unfold aligned in Ab. pose proof (N.div_mod (base b) (2 ^ logsz b) ltac:(pose proof (pow_pos (logsz b)); lia)) as D.
           rewrite Ab in D. assert (base b / 2 ^ logsz b * 2 ^ logsz b = base b)%N as -> by (rewrite N.mul_comm; clear - D; alia).
           destruct b; exact B.
    + rewrite F. reflexivity.
  - assert (find0 r ip = Err (if v4b (addr ip) then ErrNoSupportIPv4 else ErrNoSupportIPv6)) as ->; [|reflexivity].
    unfold find0. unfold supported in Sup. rewrite (is_nil_to4 ip V) in *.
    assert (is_nil (to16 ip) = false) as E16.
    { apply is_nil_false. intros Q. pose proof (to16_length ip V) as Lq. rewrite Q in Lq. discriminate. }
    rewrite E16 in *. destruct (v4b (addr ip)); cbn [negb andb] in *; rewrite Sup; reflexivity.
Qed.

Lemma m_unique b1 r1 b2 r2 a : In (b1, r1) m -> In (b2, r2) m -> in_block b1 a -> in_block b2 a -> b1 = b2 /\ r1 = r2.
Proof.
  intros I1 I2 B1 B2. destruct (pack_winv now ipd bs (rows_net _ _ HR) HC) as [w [P [_ [W _]]]]. fold m in W.
  assert (a < 2 ^ 128)%N as La.
  { destruct (m_row b1 r1 I1) as [_ [_ [_ [Ab [_ [n Nn]]]]]]. pose proof (block_in_128 n b1 Nn Ab). destruct B1. alia. }
  assert (forall b r, In (b, r) m -> In (b, join x09 r) (mapv (join x09) m)) as J.
  { intros b r I. unfold mapv. apply in_map_iff. exists (b, r). auto. }
  pose proof (entry_unique w P _ W _ _ _ _ a (J _ _ I1) (J _ _ I2) La B1 B2) as X.
  assert (b1 = b2 /\ join x09 r1 = join x09 r2) as [-> Ej] by exact X.
  split; [reflexivity|]. destruct (m_row _ _ I1) as [A1 [A2 _]]. destruct (m_row _ _ I2) as [A3 [A4 _]].
  eapply join_inj; eassumption.
Qed.
End Packed.

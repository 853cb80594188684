(** Property theorems C44: the Java reader on databases packed by the Go packer.
    Vocabulary: Spec.v, SpecIpdb.v, SpecForeign.v. *)
From Verif Require Import Base NetIP IpNet Spec IpNetProofs SplitProofs IpNetProofs2 Ipdb SpecIpdb Foreign SpecForeign Bits.
From Verif Require Import TrieProofs WriterProofs ReaderProofs OpenProofs PackProofs ForeignProofs PropsIpdb PropsForeign.
Open Scope Z_scope.

(* ---------- split with a limit ---------- *)
Lemma split_max_cut sep k x s : no_byte sep x ->
  split_max sep k (x ++ sep :: s) = match k with O => [x ++ sep :: s] | S k' => x :: split_max sep k' s end.
Proof.
  induction x as [|c x IH]; intros H.
  - cbn [app split_max]. destruct (byte_eqb_spec sep sep); [|congruence]. destruct k; reflexivity.
  - cbn [app split_max]. destruct (byte_eqb_spec c sep) as [->|N]; [exfalso; apply H; left; reflexivity|].
    rewrite IH by (intros I; apply H; right; assumption). destruct k; reflexivity.
Qed.
Lemma split_max_one sep k x : no_byte sep x -> split_max sep k x = [x].
Proof.
  induction x as [|c x IH]; intros H; [reflexivity|]. cbn [split_max].
  destruct (byte_eqb_spec c sep) as [->|N]; [exfalso; apply H; left; reflexivity|].
  rewrite IH by (intros I; apply H; right; assumption). reflexivity.
Qed.
Lemma split_max_join sep row : row <> [] -> Forall (no_byte sep) row -> forall k,
  split_max sep k (join sep row) = if (length row <=? S k)%nat then row else firstn k row ++ [join sep (skipn k row)].
Proof.
  induction row as [|x row IH]; intros Hn Hf k; [congruence|]. inversion Hf; subst. destruct row as [|y row].
  - cbn [join length]. rewrite split_max_one by assumption. reflexivity.
  - change (join sep (x :: y :: row)) with (x ++ sep :: join sep (y :: row)). rewrite split_max_cut by assumption.
    destruct k as [|k]; [reflexivity|]. rewrite IH by (congruence || assumption). cbn [length].
    replace (S (S (length row)) <=? S (S k))%nat with (S (length row) <=? S k)%nat by lia.
    destruct (S (length row) <=? S k)%nat; reflexivity.
Qed.

Lemma copy_parts n row : (0 < n)%nat -> row <> [] -> Forall (no_byte x09) row ->
  copyOfRange None (map Some (java_split (join x09 row) n)) 0 (0 + Z.of_nat n) = Ok (java_parts n row).
Proof.
  intros Hn Hr Hf. destruct n as [|k]; [lia|]. unfold java_split, copyOfRange, java_parts.
  replace (0 + Z.of_nat (S k) <? 0) with false by lia.
  replace ((0 <? 0) || (Z.of_nat (length (map Some (split_max x09 k (join x09 row)))) <? 0)) with false by lia.
  replace (Z.to_nat (0 + Z.of_nat (S k) - 0)) with (S k) by lia. change (Z.to_nat 0) with 0%nat. cbn [skipn].
  rewrite split_max_join by assumption. replace (S k - 1)%nat with k by lia.
  destruct (Nat.leb_spec (length row) (S k)) as [L|L].
  - rewrite firstn_all2 by (rewrite map_length; lia). rewrite map_length. reflexivity.
  - assert (length (firstn k row ++ [join x09 (skipn k row)]) = S k) as Ls.
    { rewrite app_length, firstn_length. cbn [length]. lia. }
    rewrite firstn_all2 by (rewrite map_length; lia). rewrite map_length, Ls, Nat.sub_diag. cbn [repeat]. rewrite app_nil_r. reflexivity.
Qed.
Lemma java_parts_length n row : (0 < n)%nat -> length (java_parts n row) = n.
Proof.
  intros H. unfold java_parts. destruct (Nat.leb_spec (length row) n).
  - rewrite app_length, map_length, repeat_length. lia.
  - rewrite map_length, app_length, firstn_length. cbn [length]. lia.
Qed.

(* ---------- columns ---------- *)
Definition j_step (info : JInfo) (fv : bytes * option bytes) : JInfo :=
  match j_set info (fst fv) (snd fv) with Ok x => x | _ => info end.
Definition bad (fv : bytes * option bytes) : bool := bytes_eqb (fst fv) (str "continent_code") && is_null (snd fv).
Lemma j_set_ok info f v : bad (f, v) = false -> j_set info f v = Ok (j_step info (f, v)).
Proof.
  unfold bad, j_step. cbn [fst snd]. intros H. destruct info. unfold j_set.
  repeat match goal with |- context [if bytes_eqb f ?n then _ else _] => destruct (bytes_eqb f n); [|] end; try reflexivity.
  destruct v; [reflexivity|discriminate].
Qed.
Lemma j_set_bad info f v : bad (f, v) = true -> j_set info f v = Panic.
Proof.
  unfold bad. cbn [fst snd]. intros H. apply andb_true_iff in H as [H1 H2]. destruct (bytes_eqb_spec f (str "continent_code")) as [->|]; [|discriminate].
  destruct v; [discriminate|]. destruct info. reflexivity.
Qed.
Lemma j_build_spec fields parts : forall i info, (i + length parts <= length fields)%nat ->
  j_build parts i fields info =
  if existsb bad (combine (skipn i fields) parts) then Panic
  else Ok (fold_left j_step (combine (skipn i fields) parts) info).
Proof.
  induction parts as [|v vs IH]; intros i info L; cbn [j_build].
  - destruct (skipn i fields); reflexivity.
  - destruct (nth_error fields i) as [f|] eqn:E; [|apply nth_error_None in E; cbn in L; lia].
    assert (skipn i fields = f :: skipn (S i) fields) as Es.
    { revert E. clear. revert i. induction fields as [|x fields IH]; intros [|i] E; cbn in *; try discriminate.
      - injection E as ->. reflexivity.
      - apply IH. assumption. }
    unfold idx. rewrite E. cbn [bind]. rewrite Es. cbn [combine existsb fold_left].
    destruct (bad (f, v)) eqn:B.
    + rewrite j_set_bad by assumption. reflexivity.
    + rewrite j_set_ok by assumption. cbn [bind orb]. apply IH. cbn in L. lia.
Qed.

Definition jc (names : list bytes) (l : list (bytes * option bytes)) : option bytes :=
  last (map snd (filter (fun fv => in_array (fst fv) names) l)) None.
Lemma jc_snoc names l f v : jc names (l ++ [(f, v)]) = if in_array f names then v else jc names l.
Proof.
  unfold jc. rewrite filter_app, map_app. cbn [filter fst]. destruct (in_array f names); cbn [map snd].
  - apply last_last.
  - rewrite app_nil_r. reflexivity.
Qed.
Lemma j_continent_spec v : j_continent (Some v) = Ok (continent_name v).
Proof.
  unfold j_continent, continent_name. rewrite assoc_eqb_sym.
  repeat match goal with |- context [if bytes_eqb v ?n then _ else _] => destruct (bytes_eqb v n); [reflexivity|] end. reflexivity.
Qed.
Lemma j_fold l : existsb bad l = false -> fold_left j_step l emptyJInfo =
  mkJInfo (jc [str "country_name"] l) (jc [str "district"] l) (jc [str "region_name"] l) (jc [str "city_name"] l)
          (jc [str "asn"] l) (jc [str "isp_domain"] l) (option_map continent_name (jc [str "continent_code"] l))
          (jc [str "line"; str "asn"] l).
Proof.
  induction l as [|[f v] l IH] using rev_ind; [reflexivity|]. intros H.
  rewrite existsb_app in H. apply orb_false_iff in H as [H1 H2]. cbn [existsb] in H2. rewrite orb_false_r in H2.
  rewrite fold_left_app, IH by assumption. cbn [fold_left]. rewrite !jc_snoc.
  unfold j_step, j_set. cbn [fst snd]. unfold in_array. cbn [existsb].
  repeat match goal with |- context [bytes_eqb f ?n] => destruct (bytes_eqb_spec f n) as [->|?]; [try reflexivity|] end; [|reflexivity].
  destruct v as [v|]; [|discriminate H2]. cbv iota. rewrite j_continent_spec. reflexivity.
Qed.

Lemma covert_in names1 names : (forall f, in_array (covert1 f) names1 = in_array f names) ->
  forall fields parts, map snd (filter (fun fv => in_array (fst fv) names1) (combine (map covert1 fields) parts)) = java_values names fields parts.
Proof.
  intros H fields values. unfold java_values.
  revert values; induction fields as [|f fs IH]; intros [|v vs]; try reflexivity.
  cbn [map combine filter fst]. rewrite H. destruct (in_array f names); cbn [map snd]; rewrite IH; reflexivity.
Qed.
Lemma j_build_row fields row : fields <> [] ->
  j_build (java_parts (length fields) row) 0 (covertFields fields) emptyJInfo = java_answer fields row.
Proof.
  intros Hf. change (covertFields fields) with (map covert1 fields). unfold java_answer.
  assert (0 < length fields)%nat as L0 by (destruct fields; [congruence|cbn; lia]).
  pose proof (java_parts_length (length fields) row L0) as Lp. set (parts := java_parts (length fields) row) in *. clearbody parts.
  rewrite j_build_spec by (rewrite map_length; lia). cbn [skipn].
  assert (existsb bad (combine (map covert1 fields) parts) = null_continent fields parts) as Eb.
  { unfold null_continent. rewrite <- (covert_in [str "continent_code"] continent_names); [|unfold continent_names; covert_solve].
    induction (combine (map covert1 fields) parts) as [|[f v] l IH]; [reflexivity|].
    cbn [existsb filter fst]. rewrite IH. unfold bad at 1. cbn [fst snd]. unfold in_array at 2. cbn [existsb]. rewrite orb_false_r.
    destruct (bytes_eqb f (str "continent_code")); reflexivity. }
  rewrite Eb. destruct (null_continent fields parts) eqn:En; [reflexivity|]. rewrite j_fold by assumption.
  f_equal. unfold java_info, java_column, jc.
  f_equal; f_equal; try f_equal; first [apply covert_in; unfold continent_names; covert_solve | idtac].
Qed.

(* ---------- opening and searching ---------- *)
Lemma copyOfRange_zslice (l : bytes) lo hi s : zslice l lo hi = Ok s -> copyOfRange x00 l lo hi = Ok s.
Proof.
  unfold zslice, copyOfRange. destruct (Z.ltb_spec lo 0); [discriminate|]. destruct (Z.ltb_spec hi 0); [discriminate|].
  intros H1. apply slice_Ok in H1 as [H1 ->]. replace (hi <? lo) with false by lia.
  cbn [orb]. replace (Z.of_nat (length l) <? lo) with false by lia.
  replace (Z.to_nat (hi - lo)) with (Z.to_nat hi - Z.to_nat lo)%nat by lia.
  rewrite firstn_length, skipn_length. replace (_ - Nat.min _ _)%nat with 0%nat by lia. cbn [repeat]. rewrite app_nil_r. reflexivity.
Qed.

Section Opened.
Context (marshal : MetaData -> bytes) (unmarshal : bytes -> option MetaData).
Context (w : Writer) (P : list path_t) (m : list (block * bytes)).
Hypothesis HW : winv w P m.
Hypothesis HS : Z.of_nat (length (Save marshal w)) < 2 ^ 31.
Hypothesis HJ : unmarshal (marshal (save_meta w)) = Some (save_meta w).
Let nc := Z.of_nat (length (wNode w)).

Lemma j_open : exists r, j_new unmarshal (Save marshal w) = Ok r /\ jrMeta r = save_meta w /\ jrData r = body w /\
  jrNodeCount r = nc /\ jrFileSize r = Z.of_nat (length (Save marshal w)) /\
  (HasIPv4 (save_meta w) = true -> exists k c, rwalk (body w) nc v4bits 0 = Ok (jrV4 r, k) /\ 0 <= jrV4 r /\
     jrCache r = Some c /\ initCache12 (j_read_node (body w)) nc (jrV4 r) = Ok c).
Proof.
  destruct (save_parts marshal w) as [Ls [S1 [S2 S3]]]. set (md := marshal (save_meta w)) in *. set (data := Save marshal w) in *.
  pose proof (body_length w) as BL. 
  unfold j_new. replace (Z.of_nat (length data) <? 5) with false by lia. rewrite S1. cbn [bind].
  assert (i32 (val (IntToBinaryBE (Z.of_nat (length md)) 32)) = Z.of_nat (length md)) as ->.
  { rewrite i32_ok; rewrite IntToBinaryBE_val32 by lia; lia. }
  rewrite (wrap32_ok (Z.of_nat (length md) + 4)) by lia.
  replace (Z.of_nat (length md) + 4) with (4 + Z.of_nat (length md)) by lia.
  rewrite (copyOfRange_zslice _ _ _ _ S2), HJ. cbn [bind].
  assert (mTotalSize (save_meta w) = Z.of_nat (length (body w))) as Et by (cbn; unfold body; rewrite app_length; reflexivity).
  rewrite Et. rewrite wrap32_ok by lia.
  replace (negb _) with false by (symmetry; apply negb_false_iff, Z.eqb_eq; lia).
  rewrite (copyOfRange_zslice _ _ _ _ S3). cbn [bind].
  change (mNodeCount (save_meta w)) with nc.
  pose proof (body_small marshal w HS) as BS.
  destruct (HasIPv4 (save_meta w)).
  - destruct (v4_parts marshal w P m HW HS _ (j_reads w P m HW BS)) as [v4 [k [c [W [L0 [V [_ C]]]]]]].
    fold nc in V, C, W. rewrite V. cbn [bind]. rewrite C. cbn [bind]. eexists. split; [reflexivity|]. cbn [jrMeta jrData jrNodeCount jrFileSize jrV4 jrCache].
    do 4 (split; [reflexivity|]). intros _. exists k, c. auto.
  - eexists. split; [reflexivity|]. cbn [jrMeta jrData jrNodeCount jrFileSize jrV4 jrCache]. do 4 (split; [reflexivity|]). discriminate.
Qed.

Lemma j_find0_ends r ip : jrMeta r = save_meta w -> jrData r = body w -> jrNodeCount r = nc ->
  (HasIPv4 (save_meta w) = true -> exists k c, rwalk (body w) nc v4bits 0 = Ok (jrV4 r, k) /\ 0 <= jrV4 r /\
     jrCache r = Some c /\ initCache12 (j_read_node (body w)) nc (jrV4 r) = Ok c) ->
  has w ip = true -> exists node, j_find0 r ip = Ok node /\ ends_at w m ip node.
Proof.
  intros Em Ed En H4 Hh. unfold has in Hh. unfold j_find0. rewrite Em, Ed, En.
  pose proof (j_reads w P m HW (body_small marshal w HS)) as JR. fold nc in JR.
  destruct (Nat.eqb_spec (length ip) 16) as [L|L].
  - rewrite Hh. destruct (find_node_ends marshal w P m HW HS _ ip (jrV4 r) (jrCache r) JR ltac:(right; assumption) ltac:(lia)) as [n [F E]].
    fold nc in F. rewrite F. eauto.
  - destruct (Nat.eqb_spec (length ip) 4) as [L4|L4]; [|discriminate]. rewrite Hh.
    destruct (find_node_ends marshal w P m HW HS _ ip (jrV4 r) (jrCache r) JR ltac:(left; assumption) ltac:(auto)) as [n [F E]].
    fold nc in F. rewrite F. eauto.
Qed.

Lemma j_resolve_like lossy r node row fs : jrMeta r = save_meta w -> jrData r = body w -> jrNodeCount r = nc ->
  jrFileSize r = fs -> fs < 2 ^ 31 -> nc <= node < 2 ^ 31 -> mLanguages (save_meta w) = [(str "CN", 0)] ->
  mFields (save_meta w) <> [] -> row <> [] -> Forall (no_byte x09) row -> lossy (join x09 row) = join x09 row ->
  resolve (mkReader fs nc 0 (save_meta w) (body w) None None) node = Ok (join x09 row) ->
  j_resolve lossy r node (str "CN") = Ok (Some (java_parts (length (mFields (save_meta w))) row)).
Proof.
  intros Em Ed En Ef Hf Hn Hl Hfl Hr Ht HL R. unfold j_resolve. rewrite Em, Ed, En, Ef, Hl. cbn [assoc]. rewrite bytes_eqb_refl.
  pose proof (body_small marshal w HS) as BS.
  pose proof (nc_small w BS) as NS. fold nc in NS. pose proof (nc_pos w P m HW) as NP. fold nc in NP.
  rewrite (wrap32_ok (node - nc)) by lia. rewrite (wrap32_ok (nc * 8)) by lia.
  unfold resolve in R. cbn [rFileSize rNodeCount rData] in R. set (o := node - nc + nc * 8) in *.
  assert (0 <= o) as L0 by (unfold o; lia).
  destruct (Z.leb_spec fs o) as [L|L]; [discriminate|].
  rewrite (wrap32_ok o) by lia. replace (fs <=? o) with false by lia.
  destruct (zslice (body w) o (o + 2)) as [sz| | |] eqn:Z2; cbn [bind] in R; try discriminate.
  change 2 with (Z.of_nat 2) in Z2. destruct (zslice_len _ _ _ _ Z2) as [Lz [_ Lo]]. change (Z.of_nat 2) with 2 in Lo.
  destruct sz as [|a [|b [|? ?]]]; try discriminate.
  pose proof (zslice_idx _ _ _ _ 0 a Z2 eq_refl) as E0. pose proof (zslice_idx _ _ _ _ 1 b Z2 eq_refl) as E1.
  change (Z.of_nat 0) with 0 in E0. change (Z.of_nat 1) with 1 in E1. rewrite Z.add_0_r in E0.
  rewrite E0. cbn [bind]. rewrite (wrap32_ok (o + 1)) by lia. rewrite E1. cbn [bind].
  destruct (Z.ltb_spec (Z.of_nat (length (body w))) (o + 2 + Z.of_N (val [a; b]))) as [Lb|Lb]; [discriminate|].
  set (sz := Z.of_N (val [a; b])) in *. assert (0 <= sz) as Ls by (unfold sz; lia). clearbody sz.
  rewrite (wrap32_ok (o + 2 + sz)), (wrap32_ok (o + 2)) by lia.
  replace (Z.of_nat (length (body w)) <? o + 2 + sz) with false by lia.
  rewrite R. cbn [bind]. rewrite HL. cbn [length]. rewrite Nat.mul_1_r.
  rewrite copy_parts; [reflexivity| |assumption|assumption].
  destruct (mFields (save_meta w)); [congruence|cbn; lia].
Qed.
End Opened.

(* ---------- the answer cache ---------- *)
Definition j_info_of (lossy : bytes -> bytes) (r : JReader) (node : Z) : res JInfo :=
  let* parts := j_resolve lossy r node (str "CN") in
  match parts with
  | None => Err ErrIPFormat
  | Some parts => j_build parts 0 (mFields (jrMeta r)) emptyJInfo
  end.
Lemma j_query0_uncached lossy r c ip : j_query0 lossy r c ip false =
  let* node := j_find0 r ip in let* info := j_info_of lossy r node in Ok (node, info).
Proof.
  unfold j_query0, j_info_of. destruct (j_find0 r ip) as [node| | |]; cbn [bind]; try reflexivity.
  destruct (j_resolve lossy r node (str "CN")) as [[parts|]| | |]; cbn [bind]; reflexivity.
Qed.
Definition jcinv (lossy : bytes -> bytes) (r : JReader) (l : list (Z * JInfo)) : Prop :=
  forall node v, jget node l = Some v -> j_info_of lossy r node = Ok v.
Lemma j_build_cache_inv lossy r ips : forall l, jcinv lossy r l -> jcinv lossy r (j_build_cache lossy r l ips).
Proof.
  induction ips as [|ip ips IH]; intros l H; cbn [j_build_cache]; [assumption|]. rewrite j_query0_uncached.
  destruct (j_find0 r ip) as [node| | |]; cbn [bind]; try (apply IH; assumption).
  destruct (j_info_of lossy r node) as [info| | |] eqn:E; cbn [bind]; try (apply IH; assumption).
  apply IH. intros k v. cbn [jget]. destruct (Z.eqb_spec node k) as [->|N]; [|apply H]. congruence.
Qed.

(** C44: the answers do not depend on the addresses that were asked to fill the cache. *)
Theorem C44_java_cache_transparent : forall unmarshal lossy ips data q r,
  j_create unmarshal lossy ips data = Ok q -> j_new unmarshal data = Ok r ->
  forall ip, j_query lossy q ip = j_query lossy (r, None) ip.
Proof.
  intros unmarshal lossy ips data q r C O ip. unfold j_create in C. rewrite O in C. cbn [bind] in C.
  assert (q = (r, if HasIPv4 (jrMeta r) then j_buildCache lossy r ips else None)) as -> by congruence.
  unfold j_query. cbn [fst snd]. destruct (HasIPv4 (jrMeta r)); [|reflexivity].
  pose proof (j_build_cache_inv lossy r ips [] ltac:(intros k v X; discriminate)) as I.
  unfold j_buildCache. set (l := j_build_cache lossy r [] ips) in *.
  unfold j_query0. destruct (j_find0 r ip) as [node| | |]; cbn [bind]; try reflexivity.
  destruct (jget node l) as [v|] eqn:G; [|reflexivity].
  specialize (I node v G). unfold j_info_of in I.
  destruct (j_resolve lossy r node (str "CN")) as [[parts|]| | |]; cbn [bind] in *; try discriminate.
  rewrite I. reflexivity.
Qed.
Print Assumptions C44_java_cache_transparent.

(** C44: every answer of the Java reader, from the rows alone; [ips] are the
    addresses asked when the database is opened. *)
Theorem C44_java_answers : forall marshal unmarshal lossy now ipd bs ips,
  Forall2 row_ok (dIps ipd) bs -> plain_columns (dFields ipd) -> dFields ipd <> [] ->
  json_ok32 marshal unmarshal now ipd -> decodes lossy ->
  Forall (fun r => Forall utf8 (fvals r)) (dIps ipd) ->
  exists data, pack marshal now ipd = Ok data /\
    (Z.of_nat (length data) < 2 ^ 31 ->
     exists q, j_create unmarshal lossy ips data = Ok q /\
       forall ip, takes (vIpType (dVersion ipd)) ip ->
         match lookup (store_all (combine bs (map fvals (dIps ipd)))) (addr ip) with
         | Some (_, row) => j_query lossy q ip = java_answer (dFields ipd) row
         | None => Z.of_nat (length data) < 2 ^ 19 -> j_query lossy q ip = java_answer (dFields ipd) [[]]
         end).
Proof.
  intros marshal unmarshal lossy now ipd bs ips HR HC HF HJ HD HU.
  destruct (pack_winv now ipd bs (rows_net _ _ HR) HC) as [w [P [E [W [M S]]]]].
  exists (Save marshal w). unfold pack. rewrite E. cbn [bind]. split; [reflexivity|]. intros Hsz.
  pose proof (body_small marshal w Hsz) as BS. pose proof (body_length w) as BL. 
  assert (unmarshal (marshal (save_meta w)) = Some (save_meta w)) as HJ' by (rewrite S; apply HJ; lia).
  destruct (j_open marshal unmarshal w P _ W Hsz HJ') as [r [O [Rm [Rd [Rn [Rf R4]]]]]].
  assert (exists q, j_create unmarshal lossy ips (Save marshal w) = Ok q) as [q Oq] by (unfold j_create; rewrite O; cbn [bind]; eauto).
  exists q. split; [assumption|]. intros ip T.
  rewrite (C44_java_cache_transparent unmarshal lossy ips _ q r Oq O ip).
  destruct (takes_has now ipd w ip S T) as [Hh V].
  destruct (j_find0_ends marshal w P _ W Hsz r ip Rm Rd Rn R4 Hh) as [node [F0 En]].
  destruct (save_parts marshal w) as [Ls _].
  assert (mFields (save_meta w) = covertFields (dFields ipd)) as Mf by (rewrite S; reflexivity).
  assert (length (mFields (save_meta w)) = length (dFields ipd)) as Lf by (rewrite Mf; apply map_length).
  assert (forall row, resolve (mkReader (Z.of_nat (length (Save marshal w))) (Z.of_nat (length (wNode w))) 0 (save_meta w) (body w) None None) node = Ok (join x09 row) ->
            row <> [] -> Forall (no_byte x09) row -> lossy (join x09 row) = join x09 row ->
            j_query lossy (r, None) ip = java_answer (dFields ipd) row) as Q.
  { intros row Rt Hr Ht Lt. unfold j_query. cbn [fst snd].
    unfold j_query0. rewrite F0. cbn [bind].
    rewrite (j_resolve_like marshal w P _ W Hsz lossy r node row (Z.of_nat (length (Save marshal w)))); try assumption.
    - cbn [bind]. rewrite Rm, Mf. unfold covertFields at 1. rewrite map_length. rewrite j_build_row by assumption.
      destruct (java_answer (dFields ipd) row); reflexivity.
    - apply (node_bound marshal w P _ W Hsz ip node En).
    - rewrite S. reflexivity.
    - intros X. rewrite X in Lf. destruct (dFields ipd); [congruence|discriminate]. }
  pose proof (resolve_ends w P _ W ip node (Z.of_nat (length (Save marshal w))) En ltac:(lia)) as RE.
  unfold text_of in RE. rewrite lookup_join in RE. fold (rows_of (dIps ipd) bs).
  destruct (lookup (store_all (rows_of (dIps ipd) bs)) (addr ip)) as [[b row]|] eqn:L.
  - destruct (lookup_row _ _ _ _ _ HR L) as [rr [I [[_ R1 R2 R3] Er]]]. rewrite Er in R1, R2, R3.
    assert (utf8 (join x09 row)) as U by (apply utf8_join; rewrite <- Er; rewrite Forall_forall in HU; apply HU; assumption).
    apply Q; [|assumption|assumption|apply HD; assumption].
    apply RE; [|discriminate]. intros b' s' X. injection X as <- <-. assumption.
  - intros H19. apply Q; [|discriminate|repeat constructor; intros []|apply HD, utf8_nil].
    apply RE; [discriminate|]. intros _. lia.
Qed.
Print Assumptions C44_java_answers.

(* ---------- comparing with the Go answer ---------- *)
(** A Java value against a Go value: null stands for a column that is not there. *)
Definition same_or_null (names fields : list bytes) (j : option bytes) (g : bytes) : Prop :=
  (exists f, In f fields /\ In f names) /\ j = Some g \/
  (forall f, In f fields -> ~ In f names) /\ j = None /\ g = [].

Lemma in_array_In f l : in_array f l = true <-> In f l.
Proof.
  unfold in_array. rewrite existsb_exists. split.
  - intros [x [I Eq]]. destruct (bytes_eqb_spec f x) as [->|]; [assumption|discriminate].
  - intros I. exists f. split; [assumption|apply bytes_eqb_refl].
Qed.
Lemma java_parts_full n row : length row = n -> java_parts n row = map Some row.
Proof.
  intros <-. unfold java_parts. rewrite Nat.leb_refl, Nat.sub_diag. apply app_nil_r.
Qed.
Lemma java_values_full names fields row : java_values names fields (map Some row) = map Some (values_of names fields row).
Proof.
  unfold java_values, values_of. revert row; induction fields as [|f fs IH]; intros [|v vs]; try reflexivity.
  cbn [map combine filter fst]. destruct (in_array f names); cbn [map snd]; rewrite IH; reflexivity.
Qed.
Lemma last_map_some (l : list bytes) : l <> [] -> last (map Some l) None = Some (last l []).
Proof.
  intros H. destruct (exists_last H) as [l' [x ->]]. rewrite map_app. cbn [map]. rewrite !last_last. reflexivity.
Qed.
Lemma values_none names fields row : (forall f, In f fields -> ~ In f names) -> values_of names fields row = [].
Proof.
  unfold values_of. revert row; induction fields as [|f fs IH]; intros [|v vs] H; try reflexivity.
  cbn [combine filter fst]. destruct (in_array f names) eqn:E.
  - exfalso. apply (H f); [left; reflexivity|]. apply in_array_In. assumption.
  - apply IH. intros g I. apply H. right. assumption.
Qed.
Lemma values_some names fields row f : In f fields -> In f names -> length row = length fields -> values_of names fields row <> [].
Proof.
  unfold values_of. revert row; induction fields as [|g fs IH]; intros [|v vs] I N L; try discriminate; [contradiction|].
  cbn [combine filter fst]. destruct I as [->|I].
  - assert (in_array f names = true) as -> by (apply in_array_In; assumption). discriminate.
  - destruct (in_array g names); [discriminate|]. apply IH; [assumption..|]. cbn in L. lia.
Qed.
Lemma java_column_same names fields row : length row = length fields ->
  same_or_null names fields (java_column names fields (map Some row)) (column names fields row).
Proof.
  intros L. unfold same_or_null, java_column. rewrite java_values_full. fold (values_of names fields row).
  change (column names fields row) with (last (values_of names fields row) []).
  destruct (existsb (fun f => in_array f names) fields) eqn:E.
  - left. apply existsb_exists in E as [f [I N]]. apply in_array_In in N. split; [eauto|].
    apply last_map_some. apply (values_some names fields row f); assumption.
  - right. assert (forall f, In f fields -> ~ In f names) as N.
    { intros f I N. apply in_array_In in N. assert (existsb (fun f => in_array f names) fields = true); [|congruence].
      apply existsb_exists. eauto. }
    split; [assumption|]. rewrite values_none by assumption. auto.
Qed.
Lemma combine_app2 {A B} (a : list A) : forall (c : list B) b d, length a = length c ->
  combine (a ++ b) (c ++ d) = combine a c ++ combine b d.
Proof. induction a as [|x a IH]; intros [|y c] b d L; try discriminate; [reflexivity|]. cbn. f_equal. apply IH. cbn in L. lia. Qed.
(** The last column with one of the names. *)
Lemma values_app names fields pre f post row : fields = pre ++ f :: post -> length row = length fields ->
  (forall g, In g post -> ~ In g names) -> In f names ->
  last (values_of names fields row) [] = nth (length pre) row [].
Proof.
  intros -> L N I. rewrite app_length in L. cbn in L.
  destruct (nth_error row (length pre)) as [v|] eqn:E; [|apply nth_error_None in E; lia].
  etransitivity; [|symmetry; exact (nth_error_nth row (length pre) [] E)]. apply nth_error_split in E as [r1 [r2 [-> L1]]].
  unfold values_of. rewrite combine_app2 by congruence. cbn [combine]. rewrite filter_app, map_app. cbn [filter fst].
  apply in_array_In in I. rewrite I. cbn [map snd].
  fold (values_of names post r2). rewrite values_none by assumption. apply last_last.
Qed.

(** C44: on every address that both readers take and some row with one value per
    column covers, Java answers as Go: null where there is no column, the same value
    otherwise, with two exceptions.  The line is the AS number when the last column
    called line or asn is asn; several continent columns are not compared. *)
Theorem C44_java_agrees : forall marshal unmarshal unmarshal_j lossy now ipd bs ips,
  Forall2 row_ok (dIps ipd) bs -> plain_columns (dFields ipd) -> dFields ipd <> [] -> json_ok marshal unmarshal now ipd ->
  json_ok32 marshal unmarshal_j now ipd -> decodes lossy -> Forall (fun r => Forall utf8 (fvals r)) (dIps ipd) ->
  exists data, pack marshal now ipd = Ok data /\
    (Z.of_nat (length data) < 2 ^ 31 ->
     exists q r, newQuerier unmarshal data = Ok (q, []) /\ j_create unmarshal_j lossy ips data = Ok r /\
       forall ip b row, takes (vIpType (dVersion ipd)) ip -> holds_family (vIpType (dVersion ipd)) (addr ip) = true ->
         lookup (store_all (combine bs (map fvals (dIps ipd)))) (addr ip) = Some (b, row) ->
         length row = length (dFields ipd) ->
         exists g x, Query q [] ip = Ok (g, prefix_len (addr ip) b) /\ j_query lossy r ip = Ok x /\
           same_or_null [str "country"; str "country_name"] (dFields ipd) (jCountry x) (iCountry g) /\
           same_or_null [str "province"; str "region_name"] (dFields ipd) (jProvince x) (iProvince g) /\
           same_or_null [str "city"; str "city_name"] (dFields ipd) (jCity x) (iCity g) /\
           same_or_null [str "isp"; str "isp_domain"] (dFields ipd) (jIsp x) (iIsp g) /\
           same_or_null [str "asn"] (dFields ipd) (jAsn x) (iAsn g) /\
           same_or_null [str "district"] (dFields ipd) (jDistrict x) (iDistrict g) /\
           ((length (filter (fun f => in_array f continent_names) (dFields ipd)) <= 1)%nat ->
              same_or_null continent_names (dFields ipd) (jContinent x) (iContinent g)) /\
           (~ In (str "asn") (dFields ipd) -> same_or_null [str "line"] (dFields ipd) (jLine x) (iLine g)) /\
           (forall pre f post, dFields ipd = pre ++ f :: post -> In f [str "line"; str "asn"] ->
              (forall f', In f' post -> ~ In f' [str "line"; str "asn"]) ->
              (f = str "line" -> jLine x = Some (iLine g)) /\ (f = str "asn" -> jLine x = Some (iAsn g)))).
Proof.
  intros marshal unmarshal unmarshal_j lossy now ipd bs ips HR HC HF HJ HJ32 HD HU.
  destruct (C12_pack_query marshal unmarshal now ipd bs HR HC HF HJ) as [data [E Q]].
  destruct (C44_java_answers marshal unmarshal_j lossy now ipd bs ips HR HC HF HJ32 HD HU) as [data' [E' Q']].
  rewrite E in E'. injection E' as <-. exists data. split; [assumption|]. intros Hs.
  destruct (Q ltac:(lia)) as [q [Oq A]]. destruct (Q' Hs) as [r [Or B]].
  exists q, r. split; [assumption|]. split; [assumption|]. intros ip b row T F L Len.
  assert (valid_ip ip) as V by (destruct T as [[T _]|[T _]]; [left|right]; assumption).
  specialize (A ip V). specialize (B ip T). unfold answer in A. rewrite F, L in A. rewrite L in B.
  replace (length row <? length (dFields ipd))%nat with false in A by lia.
  unfold java_answer in B. rewrite java_parts_full in B by assumption.
  replace (null_continent (dFields ipd) (map Some row)) with false in B.
  2:{ unfold null_continent. rewrite java_values_full. induction (values_of continent_names (dFields ipd) row); [reflexivity|assumption]. }
  eexists _, _. split; [exact A|]. split; [exact B|].
  set (fields := dFields ipd) in *.
  assert (forall names, (forall f, in_array f names = true -> in_array f continent_names = false) ->
            same_or_null names fields (java_column names fields (map Some row)) (column names fields (show_continent fields row))) as C1.
  { intros names H. rewrite column_show by assumption. apply java_column_same. assumption. }
  unfold row_info, java_info.
  cbn [iCountry iProvince iCity iIsp iAsn iLine iDistrict iContinent jCountry jProvince jCity jIsp jAsn jLine jDistrict jContinent].
  do 6 (split; [apply C1; not_continent|]). fold continent_names.
  split; [|split].
  - intros H1. destruct (java_column_same continent_names fields row Len) as [[X Y]|[X [Y Z]]].
    + left. split; [assumption|]. rewrite Y. cbn [option_map]. f_equal.
      assert (length (values_of continent_names fields row) <= 1)%nat as H2.
      { unfold values_of. rewrite map_length. revert H1 Len. clear. clearbody fields. revert row.
        intros row H1 L. etransitivity; [|exact H1]. apply Nat.eq_le_incl. clear H1. revert row L.
        induction fields as [|g fs IH]; intros [|v vs] L; try discriminate; [reflexivity|].
        cbn [combine filter fst]. cbn [length] in L. destruct (in_array g continent_names); cbn [length]; rewrite (IH vs) by lia; reflexivity. }
      destruct X as [f [I N]].
      pose proof (values_some continent_names fields row f I N Len) as NE.
      destruct (values_of continent_names fields row) as [|v [|? ?]] eqn:Ev; [congruence| |cbn in H2; lia].
      rewrite (column_continent fields row v) by (lia || assumption).
      change (column continent_names fields row) with (last (values_of continent_names fields row) []). rewrite Ev. reflexivity.
    + right. split; [assumption|]. rewrite Y. split; [reflexivity|].
      change (last (values_of continent_names fields (show_continent fields row)) [] = []).
      rewrite values_none by assumption. reflexivity.
  - intros N. replace (java_column [str "line"; str "asn"] fields (map Some row)) with (java_column [str "line"] fields (map Some row)).
    { apply C1; not_continent. }
    unfold java_column. f_equal. rewrite !java_values_full. f_equal. unfold values_of. f_equal.
    clear - N. clearbody fields. revert row. induction fields as [|f fs IH]; intros [|v vs]; try reflexivity.
    assert (~ In (str "asn") fs) as N' by (intros X; apply N; right; assumption).
    cbn [combine filter fst]. rewrite IH by assumption. unfold in_array. cbn [existsb].
    destruct (bytes_eqb_spec f (str "asn")) as [->|?]; [exfalso; apply N; left; reflexivity|reflexivity].
  - intros pre f post Ef If Np.
    assert (java_column [str "line"; str "asn"] fields (map Some row) = Some (nth (length pre) row [])) as Ej.
    { unfold java_column. rewrite java_values_full. rewrite last_map_some.
      - f_equal. apply (values_app _ _ pre f post); assumption.
      - apply (values_some _ _ _ f); [rewrite Ef; apply in_elt|assumption|assumption]. }
    rewrite Ej. split; intros ->; f_equal; symmetry; (rewrite column_show by not_continent);
    unfold column; fold (values_of [str "line"] fields row); fold (values_of [str "asn"] fields row).
    + apply (values_app _ _ pre (str "line") post); [assumption|assumption| |left; reflexivity].
      intros g I [<-|[]]. apply (Np _ I). left. reflexivity.
    + apply (values_app _ _ pre (str "asn") post); [assumption|assumption| |left; reflexivity].
      intros g I [<-|[]]. apply (Np _ I). right. left. reflexivity.
Qed.
Print Assumptions C44_java_agrees.

(** C44: an address without record.  Go reports an error; in a small database Java
    answers with an empty first column and nulls, or crashes when a continent column
    is not the first one. *)
Theorem C44_java_no_record : forall marshal unmarshal unmarshal_j lossy now ipd bs ips,
  Forall2 row_ok (dIps ipd) bs -> plain_columns (dFields ipd) -> (2 <= length (dFields ipd))%nat -> json_ok marshal unmarshal now ipd ->
  json_ok32 marshal unmarshal_j now ipd -> decodes lossy -> Forall (fun r => Forall utf8 (fvals r)) (dIps ipd) ->
  exists data, pack marshal now ipd = Ok data /\
    (Z.of_nat (length data) < 2 ^ 19 ->
     exists q r, newQuerier unmarshal data = Ok (q, []) /\ j_create unmarshal_j lossy ips data = Ok r /\
       forall ip, takes (vIpType (dVersion ipd)) ip -> (forall b, In b bs -> ~ in_block b (addr ip)) ->
         Query q [] ip = Err ErrDatabaseError /\
         (Exists (fun f => In f continent_names) (tl (dFields ipd)) -> j_query lossy r ip = Panic) /\
         (Forall (fun f => ~ In f continent_names) (tl (dFields ipd)) ->
            j_query lossy r ip = Ok (java_info (dFields ipd) (Some [] :: repeat None (length (dFields ipd) - 1))))).
Proof.
  intros marshal unmarshal unmarshal_j lossy now ipd bs ips HR HC HF HJ HJ32 HD HU.
  assert (dFields ipd <> []) as HF' by (intros X; rewrite X in HF; cbn in HF; lia).
  destruct (C13_no_record marshal unmarshal now ipd bs HR HC HF' HJ) as [data [E Q]].
  destruct (C44_java_answers marshal unmarshal_j lossy now ipd bs ips HR HC HF' HJ32 HD HU) as [data' [E' Q']].
  rewrite E in E'. injection E' as <-. exists data. split; [assumption|]. intros Hs.
  destruct (Q ltac:(lia)) as [q [Oq A]]. destruct (Q' ltac:(lia)) as [r [Or B]].
  exists q, r. split; [assumption|]. split; [assumption|]. intros ip T N.
  assert (valid_ip ip) as V by (destruct T as [[T _]|[T _]]; [left|right]; assumption).
  split; [apply (A ip (or_intror (or_intror (conj V N)))); assumption|].
  specialize (B ip T).
  destruct (lookup (store_all (combine bs (map fvals (dIps ipd)))) (addr ip)) as [[b row]|] eqn:L.
  { exfalso. unfold lookup in L. apply find_some in L as [I Bk]. cbn [fst] in Bk. apply in_blockb_iff in Bk.
    apply store_all_in in I. apply (N b); [|assumption].
    revert I. clear. generalize (map fvals (dIps ipd)). induction bs as [|x bs IH]; intros [|y l]; cbn; try tauto.
    intros [X|X]; [injection X as -> _; auto|right; eapply IH; eassumption]. }
  rewrite (B Hs). unfold java_answer.
  destruct (dFields ipd) as [|f fs] eqn:Ed; [contradiction|]. cbn [tl].
  assert (java_parts (length (f :: fs)) [[]] = Some [] :: repeat None (length (f :: fs) - 1)) as -> by reflexivity.
  cbn [length]. replace (S (length fs) - 1)%nat with (length fs) by lia.
  assert (null_continent (f :: fs) (Some [] :: repeat None (length fs)) = existsb (fun f => in_array f continent_names) fs) as Nc.
  { unfold null_continent, java_values. cbn [combine filter fst].
    replace (existsb is_null (map snd (if in_array f continent_names then (f, Some []) :: _ else _))) with
      (existsb is_null (map snd (filter (fun fv => in_array (fst fv) continent_names) (combine fs (repeat (@None bytes) (length fs)))))).
    2:{ destruct (in_array f continent_names); reflexivity. }
    clear. induction fs as [|g fs IH]; [reflexivity|]. cbn [length repeat combine filter fst existsb].
    destruct (in_array g continent_names); cbn [map snd existsb is_null orb]; [reflexivity|assumption]. }
  rewrite Nc. split; intros X.
  - replace (existsb _ fs) with true; [reflexivity|]. symmetry. apply existsb_exists.
    apply Exists_exists in X as [g [I Kg]]. exists g. split; [assumption|]. apply in_array_In. assumption.
  - replace (existsb _ fs) with false; [reflexivity|].
    symmetry. apply not_true_iff_false. intros Y. apply existsb_exists in Y as [g [I Kg]]. apply in_array_In in Kg.
    rewrite Forall_forall in X. exact (X g I Kg).
Qed.
Print Assumptions C44_java_no_record.

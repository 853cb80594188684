(** Property theorems C43 (Rust) and C44 (Java): the other two readers of the ipdb
    format on databases packed by the Go packer.  Vocabulary: Spec.v, SpecIpdb.v,
    SpecForeign.v. *)
From Verif Require Import Base NetIP IpNet Spec IpNetProofs SplitProofs IpNetProofs2 Ipdb SpecIpdb Foreign SpecForeign Bits.
From Verif Require Import TrieProofs WriterProofs ReaderProofs OpenProofs PackProofs ForeignProofs PropsIpdb.
Open Scope Z_scope.

(** The JSON library of the other language reads the metadata that Go wrote, as
    long as the numbers fit its 32-bit fields. *)
Definition json_ok32 (marshal : MetaData -> bytes) (unmarshal : bytes -> option MetaData) (now : Z) (ipd : IpData) : Prop :=
  forall nodes size, 0 <= nodes < 2 ^ 31 -> 0 <= size < 2 ^ 31 ->
    unmarshal (marshal (meta_of now ipd nodes size)) = Some (meta_of now ipd nodes size).
(** Decoding UTF-8 text gives the text. *)
Definition decodes (lossy : bytes -> bytes) : Prop := forall s, utf8 s -> lossy s = s.

Lemma utf8_app a b : utf8 a -> utf8 b -> utf8 (a ++ b).
Proof. intros [ca [Fa ->]] [cb [Fb ->]]. exists (ca ++ cb). split; [apply Forall_app; auto|]. rewrite flat_map_app. reflexivity. Qed.
Lemma utf8_nil : utf8 [].
Proof. exists []. auto. Qed.
Lemma utf8_join row : Forall utf8 row -> utf8 (join x09 row).
Proof.
  induction row as [|v row IH]; intros H; [apply utf8_nil|]. inversion H; subst. destruct row as [|u row]; [assumption|].
  change (join x09 (v :: u :: row)) with (v ++ [x09] ++ join x09 (u :: row)).
  apply utf8_app; [assumption|]. apply utf8_app; [|auto]. exists [9%N]. split; [|reflexivity]. repeat constructor.
Qed.

(* ---------- columns ---------- *)
Definition known1 : list bytes :=
  [str "country_name"; str "region_name"; str "city_name"; str "isp_domain"; str "asn"; str "line"; str "district"; str "continent_code"].
Lemma known_covert f : in_array (covert1 f) known1 = in_array f known_columns.
Proof. unfold known1, known_columns. revert f. covert_solve. Qed.

(* ---------- Rust: build_info ---------- *)
Definition rs_step (info : IpInfo) (fv : bytes * bytes) : IpInfo :=
  match rs_set info (fst fv) (Ok (snd fv)) with Ok x => x | _ => info end.
Lemma rs_set_ok info f v : rs_set info f (Ok v) = Ok (rs_step info (f, v)).
Proof.
  unfold rs_step. cbn [fst snd]. destruct info. unfold rs_set. cbn [bind].
  repeat match goal with |- context [if bytes_eqb f ?n then _ else _] => destruct (bytes_eqb f n); [reflexivity|] end. reflexivity.
Qed.
Lemma rs_set_panic info f : rs_set info f Panic = if in_array f known1 then Panic else Ok info.
Proof.
  destruct info. unfold rs_set, known1, in_array. cbn [existsb bind].
  repeat match goal with |- context [bytes_eqb f ?n] => destruct (bytes_eqb f n); [reflexivity|] end. reflexivity.
Qed.
Lemma rs_build_spec vals fs : forall i info, rs_build vals i fs info =
  if existsb (fun f => in_array f known1) (skipn (length vals - i) fs) then Panic
  else Ok (fold_left rs_step (combine fs (skipn i vals)) info).
Proof.
  induction fs as [|f fs IH]; intros i info; cbn [rs_build].
  - rewrite skipn_nil. reflexivity.
  - unfold idx. destruct (nth_error vals i) as [v|] eqn:E.
    + assert (i < length vals)%nat as L by (apply nth_error_Some; congruence).
      rewrite rs_set_ok. cbn [bind]. rewrite IH.
      replace (length vals - i)%nat with (S (length vals - S i)) by lia. cbn [skipn].
      assert (skipn i vals = v :: skipn (S i) vals) as Es.
      { revert E. clear. revert i. induction vals as [|x vals IH]; intros [|i] E; cbn in *; try discriminate.
        - injection E as ->. reflexivity.
        - apply IH. assumption. }
      rewrite Es. reflexivity.
    + apply nth_error_None in E. rewrite rs_set_panic.
      replace (length vals - i)%nat with 0%nat by lia. cbn [skipn existsb].
      destruct (in_array f known1); cbn [orb bind]; [reflexivity|].
      rewrite IH. replace (length vals - S i)%nat with 0%nat by lia.
      rewrite (skipn_all2 vals) by lia. rewrite (skipn_all2 vals) by lia. destruct fs; reflexivity.
Qed.

Definition colv (name : bytes) (l : list (bytes * bytes)) : list bytes := map snd (filter (fun fv => bytes_eqb (fst fv) name) l).
Lemma colv_snoc name l f v : colv name (l ++ [(f, v)]) = if bytes_eqb f name then colv name l ++ [v] else colv name l.
Proof.
  unfold colv. rewrite filter_app, map_app. cbn [filter fst]. destruct (bytes_eqb f name); cbn [map snd]; [reflexivity|].
  apply app_nil_r.
Qed.
Lemma assoc_eqb_sym v : assoc v continents = 
  if bytes_eqb v (str "AS") then Some (str "亚洲")
  else if bytes_eqb v (str "EU") then Some (str "欧洲")
  else if bytes_eqb v (str "NA") then Some (str "北美洲")
  else if bytes_eqb v (str "SA") then Some (str "南美洲")
  else if bytes_eqb v (str "AF") then Some (str "非洲")
  else if bytes_eqb v (str "OC") then Some (str "大洋洲")
  else if bytes_eqb v (str "AN") then Some (str "南极洲") else None.
Proof.
  unfold continents. cbn [assoc].
  repeat match goal with |- context [bytes_eqb v ?n] =>
    replace (bytes_eqb n v) with (bytes_eqb v n) by
      (destruct (bytes_eqb_spec v n), (bytes_eqb_spec n v); congruence); destruct (bytes_eqb v n); [reflexivity|] end.
  reflexivity.
Qed.
Lemma rs_continent_spec old v : rs_continent old v = last (code_names v) old.
Proof.
  unfold code_names. rewrite assoc_eqb_sym. unfold rs_continent.
  repeat match goal with |- context [if bytes_eqb v ?n then _ else _] => destruct (bytes_eqb v n); [reflexivity|] end. reflexivity.
Qed.
Lemma last_app {A} (a b : list A) d : last (a ++ b) d = last b (last a d).
Proof.
  induction b as [|x b IH] using rev_ind; [rewrite app_nil_r; reflexivity|].
  rewrite app_assoc, !last_last. reflexivity.
Qed.

Lemma rs_fold l : fold_left rs_step l emptyInfo =
  mkInfo (colc (str "country_name") l) (colc (str "district") l) (colc (str "region_name") l) (colc (str "city_name") l)
         (colc (str "asn") l) (colc (str "isp_domain") l)
         (last (flat_map code_names (colv (str "continent_code") l)) []) (colc (str "line") l).
Proof.
  induction l as [|[f v] l IH] using rev_ind; [reflexivity|].
  rewrite fold_left_app, IH. cbn [fold_left]. rewrite !colc_snoc, colv_snoc. unfold rs_step, rs_set. cbn [fst snd bind].
  repeat match goal with |- context [bytes_eqb f ?n] => destruct (bytes_eqb_spec f n) as [->|?]; [try reflexivity|] end; [|reflexivity].
  cbn [bytes_eqb]. change (bytes_eqb (str "continent_code") (str "continent_code")) with true. cbv iota.
  rewrite rs_continent_spec, flat_map_app, last_app. cbn [flat_map]. rewrite app_nil_r. reflexivity.
Qed.

Lemma covert_names name names : (forall f, bytes_eqb (covert1 f) name = in_array f names) ->
  forall fields values, colv name (combine (map covert1 fields) values) = values_of names fields values.
Proof.
  intros H fields values. unfold colv, values_of.
  revert values; induction fields as [|f fs IH]; intros [|v vs]; try reflexivity.
  cbn [map combine filter fst]. rewrite H. destruct (in_array f names); cbn [map snd]; rewrite IH; reflexivity.
Qed.

Lemma rs_build_row fields row : rs_build_info row (covertFields fields) = rust_answer fields row.
Proof.
  unfold rs_build_info. rewrite rs_build_spec, rs_fold. rewrite Nat.sub_0_r. cbn [skipn].
  change (covertFields fields) with (map covert1 fields). unfold rust_answer.
  assert (existsb (fun f => in_array f known1) (skipn (length row) (map covert1 fields)) =
          existsb (fun f => in_array f known_columns) (skipn (length row) fields)) as ->.
  { rewrite skipn_map. induction (skipn (length row) fields) as [|f fs IH]; [reflexivity|].
    cbn [map existsb]. rewrite known_covert, IH. reflexivity. }
  destruct (existsb _ _); [reflexivity|]. f_equal. unfold rust_info, continent_names.
  f_equal; first [apply covert1_names; covert_solve|do 2 f_equal; apply covert_names; covert_solve].
Qed.

(* ---------- Rust: opening and searching a packed database ---------- *)
(** The part of a packed file shared by the two readers. *)
Lemma save_parts marshal w : let md := marshal (save_meta w) in let data := Save marshal w in
  length data = (4 + length md + length (body w))%nat /\
  slice data 0 4 = Ok (IntToBinaryBE (Z.of_nat (length md)) 32) /\
  zslice data 4 (4 + Z.of_nat (length md)) = Ok md /\
  zslice data (4 + Z.of_nat (length md)) (Z.of_nat (length data)) = Ok (body w).
Proof.
  intros md data.
  assert (data = IntToBinaryBE (Z.of_nat (length md)) 32 ++ md ++ body w) as Es by reflexivity.
  assert (length data = 4 + length md + length (body w))%nat as Ls.
  { rewrite Es, !app_length, IntToBinaryBE_len32. lia. }
  split; [assumption|]. split; [|split].
  - rewrite Es. change (IntToBinaryBE (Z.of_nat (length md)) 32 ++ md ++ body w) with ([] ++ IntToBinaryBE (Z.of_nat (length md)) 32 ++ (md ++ body w)).
    apply slice_app; [reflexivity|]. rewrite IntToBinaryBE_len32. reflexivity.
  - rewrite Es. apply zslice_app; [rewrite IntToBinaryBE_len32|]; reflexivity.
  - rewrite Ls. assert (data = (IntToBinaryBE (Z.of_nat (length md)) 32 ++ md) ++ body w ++ []) as ->.
    { rewrite Es, app_nil_r, <- app_assoc. reflexivity. }
    apply zslice_app; [rewrite app_length, IntToBinaryBE_len32|]; lia.
Qed.

Section Opened.
Context (marshal : MetaData -> bytes) (unmarshal : bytes -> option MetaData).
Context (w : Writer) (P : list path_t) (m : list (block * bytes)).
Hypothesis HW : winv w P m.
Hypothesis HS : Z.of_nat (length (Save marshal w)) < 2 ^ 31.
Hypothesis HJ : unmarshal (marshal (save_meta w)) = Some (save_meta w).
Let nc := Z.of_nat (length (wNode w)).

Lemma body_small : Z.of_nat (length (body w)) < 2 ^ 31.
Proof. destruct (save_parts marshal w) as [L _]. lia. Qed.
Lemma small_of {A} (l : list A) : Z.of_nat (length l) < 2 ^ 31 -> - 2 ^ 31 <= Z.of_nat (length l) < 2 ^ 31.
Proof. lia. Qed.

(** The walk from the root of the IPv4 part, and the cache. *)
Lemma v4_parts rd : reads_like rd (body w) nc -> exists v4 k c,
  rwalk (body w) nc v4bits 0 = Ok (v4, k) /\ 0 <= v4 /\ j_v4walk rd nc 96 0 0 = Ok v4 /\
  rs_v4walk rd nc 96 0 0 = Ok v4 /\ initCache12 rd nc v4 = Ok c.
Proof.
  intros HR. destruct (rwalk_v4_ok w P m HW (small_fits w body_small)) as [v4 [k [W [L0 T]]]]. fold nc in W, T.
  destruct (initCache12_ok rd (body w) nc v4 HR L0 T) as [c C].
  assert (j_v4walk rd nc 96 0 0 = Ok v4) as J.
  { apply (j_v4walk_walk rd (body w) nc HR 96 0 0 v4 k); [lia|lia|]. change (skipn 0 v4bits) with v4bits.
    rewrite (firstn_all2 v4bits) by (vm_compute; lia). assumption. }
  exists v4, k, c. split; [assumption|]. split; [assumption|]. split; [assumption|]. split; [|assumption].
  rewrite rs_v4walk_j; [assumption|]. exact (nc_pos w P m HW).
Qed.

Lemma rs_open : exists r, rs_new unmarshal (Save marshal w) = Ok r /\ rsMeta r = save_meta w /\ rsData r = body w /\
  rsNodeCount r = nc /\ rsFileSize r = Z.of_nat (length (Save marshal w)) /\
  (HasIPv4 (save_meta w) = true -> exists k c, rwalk (body w) nc v4bits 0 = Ok (rsV4 r, k) /\ 0 <= rsV4 r /\
     rsCache r = Some c /\ initCache12 (rs_read_node (body w)) nc (rsV4 r) = Ok c).
Proof.
  destruct (save_parts marshal w) as [Ls [S1 [S2 S3]]]. set (md := marshal (save_meta w)) in *. set (data := Save marshal w) in *.
  assert (rs_meta unmarshal data = Ok (save_meta w, Z.of_nat (length md))) as EM.
  { unfold rs_meta. replace (length data <? 4)%nat with false by lia. rewrite S1. cbn [bind].
    assert (i32 (val (IntToBinaryBE (Z.of_nat (length md)) 32)) = Z.of_nat (length md)) as ->.
    { rewrite i32_ok; rewrite IntToBinaryBE_val32 by lia; lia. }
    rewrite Z.mod_small by lia. replace (2 ^ 64 <=? Z.of_nat (length md) + 4) with false by lia.
    replace (Z.of_nat (length data) <? Z.of_nat (length md) + 4) with false by lia.
    replace (Z.of_nat (length md) + 4) with (4 + Z.of_nat (length md)) by lia. rewrite S2. cbn [bind]. rewrite HJ. reflexivity. }
  unfold rs_new. rewrite EM. cbn [bind].
  assert (mTotalSize (save_meta w) = Z.of_nat (length (body w))) as Et by (cbn; unfold body; rewrite app_length; reflexivity).
  rewrite Et. rewrite (wrap32_ok (Z.of_nat (length md))) by lia. rewrite chk32_ok by lia. cbn [bind]. rewrite chk32_ok by lia. cbn [bind].
  rewrite (wrap32_ok (Z.of_nat (length data))) by lia.
  replace (negb _) with false by (symmetry; apply negb_false_iff, Z.eqb_eq; lia).
  replace (Z.of_nat (length md) + 4) with (4 + Z.of_nat (length md)) by lia. rewrite S3. cbn [bind].
  change (mNodeCount (save_meta w)) with nc.
  destruct (HasIPv4 (save_meta w)).
  - destruct (v4_parts _ (rs_reads w P m HW body_small)) as [v4 [k [c [W [L0 [_ [V C]]]]]]].
    rewrite V. cbn [bind]. rewrite C. cbn [bind]. eexists. split; [reflexivity|]. cbn [rsMeta rsData rsNodeCount rsFileSize rsV4 rsCache].
    do 4 (split; [reflexivity|]). intros _. exists k, c. auto.
  - eexists. split; [reflexivity|]. cbn [rsMeta rsData rsNodeCount rsFileSize rsV4 rsCache]. do 4 (split; [reflexivity|]). discriminate.
Qed.

(** The node both readers find. *)
Definition ends_at (ip : bytes) (node : Z) : Prop :=
  match lookup m (addr ip) with
  | Some (b, s) => exists off, assoc s (wHash w) = Some off /\ node = nc + off /\ nc < node
  | None => node = nc
  end.
Lemma ends_ge ip node : ends_at ip node -> nc <= node.
Proof. unfold ends_at. destruct (lookup m (addr ip)) as [[b s]|]; [intros [off [_ [_ L]]]; lia|lia]. Qed.

Definition has (ip : bytes) : bool :=
  if (length ip =? 16)%nat then HasIPv6 (save_meta w) else if (length ip =? 4)%nat then HasIPv4 (save_meta w) else false.

Lemma find_node_ends rd ip v4 cache : reads_like rd (body w) nc -> valid_ip ip ->
  (length ip = 4%nat -> exists k c, rwalk (body w) nc v4bits 0 = Ok (v4, k) /\ 0 <= v4 /\ cache = Some c /\ initCache12 rd nc v4 = Ok c) ->
  exists node, find_node12 rd nc v4 cache ip = Ok node /\ ends_at ip node.
Proof.
  intros HR V H4. destruct V as [L|L].
  - destruct (H4 L) as [k [c [W [L0 [-> C]]]]].
    destruct (rwalk_leaves4 w P m HW body_small ip v4 k L W) as [n [k' [W2 E]]]. fold nc in W2, E.
    exists n. split; [|exact E]. rewrite (find_node12_v4 rd (body w) nc v4 c ip n k' HR L0 C L W2).
    pose proof (ends_ge ip n E). replace (nc <=? n) with true by lia. reflexivity.
  - destruct (rwalk_leaves w P m HW body_small (addr ip) (addr_bound ip (or_intror L))) as [n [k' [W2 E]]]. fold nc in W2, E.
    exists n. split; [|exact E].
    assert (bits ip = abits (addr ip)) as Eb.
    { rewrite <- (abits_to16 ip) by (right; assumption). unfold to16. rewrite L. reflexivity. }
    rewrite <- Eb in W2. rewrite (find_node12_v6 rd (body w) nc v4 cache ip n k' HR L W2).
    pose proof (ends_ge ip n E). replace (nc <=? n) with true by lia. reflexivity.
Qed.

Lemma rs_find0_ends r ip : rsMeta r = save_meta w -> rsData r = body w -> rsNodeCount r = nc ->
  (HasIPv4 (save_meta w) = true -> exists k c, rwalk (body w) nc v4bits 0 = Ok (rsV4 r, k) /\ 0 <= rsV4 r /\
     rsCache r = Some c /\ initCache12 (rs_read_node (body w)) nc (rsV4 r) = Ok c) ->
  has ip = true -> exists node, rs_find0 r ip = Ok node /\ ends_at ip node.
Proof.
  intros Em Ed En H4 Hh. unfold has in Hh. unfold rs_find0. rewrite Em, Ed, En.
  destruct (Nat.eqb_spec (length ip) 16) as [L|L].
  - rewrite Hh. apply find_node_ends; [exact (rs_reads w P m HW body_small)|right; assumption|lia].
  - destruct (Nat.eqb_spec (length ip) 4) as [L4|L4]; [|discriminate]. rewrite Hh.
    apply find_node_ends; [exact (rs_reads w P m HW body_small)|left; assumption|auto].
Qed.

(** The record text that is read. *)
Definition text_of (ip : bytes) : bytes := match lookup m (addr ip) with Some (_, s) => s | None => [] end.
Lemma node_bound ip node : ends_at ip node -> nc <= node < 2 ^ 31.
Proof.
  intros H. split; [apply (ends_ge ip); assumption|]. unfold ends_at in H.
  pose proof (nc_small w body_small) as NS. fold nc in NS.
  destruct (lookup m (addr ip)) as [[b s]|]; [|lia]. destruct H as [off [A [-> _]]].
  pose proof (hi_lt _ _ (wi_h _ _ _ HW) _ _ A) as B. pose proof (body_length w) as BL. fold nc in BL.
  pose proof (nc_pos w P m HW) as NP. fold nc in NP. pose proof body_small. lia.
Qed.
Lemma resolve_ends ip node fs : ends_at ip node -> fs >= Z.of_nat (length (body w)) ->
  (forall b s, lookup m (addr ip) = Some (b, s) -> N.of_nat (length s) < 65536)%N ->
  (lookup m (addr ip) = None -> nc < 65536) ->
  resolve (mkReader fs nc 0 (save_meta w) (body w) None None) node = Ok (text_of ip).
Proof.
  intros H Hf Hs Hn. unfold ends_at, text_of in *. destruct (lookup m (addr ip)) as [[b s]|].
  - destruct H as [off [A [-> _]]]. 
    rewrite (resolve_packed w P m HW _ s off) by (reflexivity || assumption).
    rewrite N.mod_small by (change (2 ^ 16)%N with 65536%N; eapply Hs; reflexivity). rewrite Nat2N.id, firstn_all. reflexivity.
  - subst node. apply (resolve_none w P m HW); [reflexivity..|assumption|auto].
Qed.

Lemma rs_resolve_like lossy r node s fs : rsMeta r = save_meta w -> rsData r = body w -> rsNodeCount r = nc ->
  rsFileSize r = fs -> fs < 2 ^ 31 -> nc <= node < 2 ^ 31 -> mLanguages (save_meta w) = [(str "CN", 0)] ->
  resolve (mkReader fs nc 0 (save_meta w) (body w) None None) node = Ok s ->
  rs_resolve lossy r node (str "CN") = Ok (split x09 (lossy s)).
Proof.
  intros Em Ed En Ef Hf Hn Hl R. unfold rs_resolve. rewrite Em, Ed, En, Ef, Hl. cbn [assoc]. rewrite bytes_eqb_refl.
  pose proof (nc_small w body_small) as NS. fold nc in NS. pose proof (nc_pos w P m HW) as NP. fold nc in NP.
  rewrite (chk32_ok (node - nc)) by lia. cbn [bind]. rewrite (chk32_ok (nc * 8)) by lia. cbn [bind].
  unfold resolve in R. cbn [rFileSize rNodeCount rData] in R. destruct (Z.leb_spec fs (node - nc + nc * 8)) as [L|L]; [discriminate|].
  rewrite chk32_ok by lia. cbn [bind]. replace (fs <=? node - nc + nc * 8) with false by lia.
  destruct (zslice (body w) (node - nc + nc * 8) _) as [sz| | |]; cbn [bind] in *; try discriminate.
  destruct (Z.of_nat (length (body w)) <? _); [discriminate|]. rewrite R. reflexivity.
Qed.
End Opened.

(* ---------- packed datasets ---------- *)
Lemma lookup_row ips bs a b row : Forall2 row_ok ips bs -> lookup (store_all (combine bs (map fvals ips))) a = Some (b, row) ->
  exists rr, In rr ips /\ row_ok rr b /\ fvals rr = row.
Proof.
  intros HR L. unfold lookup in L. apply find_some in L as [I _]. apply store_all_in in I. exact (rows_of_ok _ _ _ _ HR I).
Qed.
Lemma lookup_join (m : list (block * list bytes)) a :
  lookup (mapv (join x09) m) a = match lookup m a with Some (b, row) => Some (b, join x09 row) | None => None end.
Proof. apply mapv_lookup. Qed.

Lemma takes_has now ipd w ip : save_meta w = meta_of now ipd (Z.of_nat (length (wNode w))) (Z.of_nat (length (body w))) ->
  takes (vIpType (dVersion ipd)) ip -> has w ip = true /\ valid_ip ip.
Proof.
  intros Em H. unfold has, HasIPv4, HasIPv6. rewrite Em. cbn [meta_of mIPVersion]. unfold ipVersion, valid_ip.
  destruct H as [[L N]|[L N]]; rewrite L; cbn [Nat.eqb]; (split; [|auto]);
  destruct (Z.eqb_spec (vIpType (dVersion ipd)) 1); try reflexivity; try contradiction;
  destruct (Z.eqb_spec (vIpType (dVersion ipd)) 2); try reflexivity; contradiction.
Qed.

(** C43: every answer of the Rust reader, from the rows alone. *)
Theorem C43_rust_answers : forall marshal unmarshal lossy now ipd bs,
  Forall2 row_ok (dIps ipd) bs -> plain_columns (dFields ipd) -> json_ok32 marshal unmarshal now ipd -> decodes lossy ->
  Forall (fun r => Forall utf8 (fvals r)) (dIps ipd) ->
  exists data, pack marshal now ipd = Ok data /\
    (Z.of_nat (length data) < 2 ^ 31 ->
     exists r, rs_new unmarshal data = Ok r /\
       forall ip, takes (vIpType (dVersion ipd)) ip ->
         match lookup (store_all (combine bs (map fvals (dIps ipd)))) (addr ip) with
         | Some (_, row) => rs_query lossy r ip = rust_answer (dFields ipd) row
         | None => Z.of_nat (length data) < 2 ^ 19 -> rs_query lossy r ip = rust_answer (dFields ipd) [[]]
         end).
Proof.
  intros marshal unmarshal lossy now ipd bs HR HC HJ HD HU.
  destruct (pack_winv now ipd bs (rows_net _ _ HR) HC) as [w [P [E [W [M S]]]]].
  exists (Save marshal w). unfold pack. rewrite E. cbn [bind]. split; [reflexivity|]. intros Hsz.
  pose proof (body_small marshal w Hsz) as BS. pose proof (body_length w) as BL. 
  assert (unmarshal (marshal (save_meta w)) = Some (save_meta w)) as HJ' by (rewrite S; apply HJ; lia).
  destruct (rs_open marshal unmarshal w P _ W Hsz HJ') as [r [O [Rm [Rd [Rn [Rf R4]]]]]].
  exists r. split; [assumption|]. intros ip T. destruct (takes_has now ipd w ip S T) as [Hh V].
  destruct (rs_find0_ends marshal w P _ W Hsz r ip Rm Rd Rn R4 Hh) as [node [F0 En]].
  destruct (save_parts marshal w) as [Ls _].
  assert (forall t, resolve (mkReader (Z.of_nat (length (Save marshal w))) (Z.of_nat (length (wNode w))) 0 (save_meta w) (body w) None None) node = Ok t ->
            lossy t = t -> rs_query lossy r ip = rust_answer (dFields ipd) (split x09 t)) as Q.
  { intros t Rt Lt. unfold rs_query, rs_find. rewrite F0. cbn [bind].
    rewrite (rs_resolve_like marshal w P _ W Hsz lossy r node t (Z.of_nat (length (Save marshal w)))); try assumption.
    - cbn [bind]. rewrite Lt, Rm, S. cbn [meta_of mFields]. apply rs_build_row.
    - apply (node_bound marshal w P _ W Hsz ip node En).
    - rewrite S. reflexivity. }
  pose proof (resolve_ends w P _ W ip node (Z.of_nat (length (Save marshal w))) En ltac:(lia)) as RE.
  unfold text_of in RE. rewrite lookup_join in RE. fold (rows_of (dIps ipd) bs).
  destruct (lookup (store_all (rows_of (dIps ipd) bs)) (addr ip)) as [[b row]|] eqn:L.
  - destruct (lookup_row _ _ _ _ _ HR L) as [rr [I [[_ R1 R2 R3] Er]]]. rewrite Er in R1, R2, R3.
    assert (utf8 (join x09 row)) as U by (apply utf8_join; rewrite <- Er; rewrite Forall_forall in HU; apply HU; assumption).
    rewrite (Q (join x09 row)); [rewrite split_join by assumption; reflexivity| |apply HD; assumption].
    apply RE; [|discriminate]. intros b' s' X. injection X as <- <-. assumption.
  - intros H19. rewrite (Q []); [reflexivity| |apply HD, utf8_nil]. apply RE; [discriminate|]. intros _. lia.
Qed.
Print Assumptions C43_rust_answers.

(* ---------- comparing with the Go answer ---------- *)
Lemma column_show names fields row : (forall f, in_array f names = true -> in_array f continent_names = false) ->
  column names fields (show_continent fields row) = column names fields row.
Proof.
  intros H. unfold column. f_equal. revert row; induction fields as [|f fs IH]; intros [|v vs]; try reflexivity.
  cbn [show_continent]. fold continent_names. destruct (in_array f continent_names) eqn:E; cbn [combine filter fst].
  - destruct (in_array f names) eqn:E2; [rewrite (H f E2) in E; discriminate|reflexivity].
  - destruct (in_array f names); cbn [map snd]; rewrite IH; reflexivity.
Qed.
Ltac not_continent := intros f; unfold in_array, continent_names; cbn [existsb];
  repeat match goal with |- context [bytes_eqb f ?n] => destruct (bytes_eqb_spec f n) as [->|?]; [try (intros; reflexivity)|] end;
  cbn [orb]; try discriminate; try reflexivity.
Lemma column_continent fields row v : (length fields <= length row)%nat -> values_of continent_names fields row = [v] ->
  column continent_names fields (show_continent fields row) = continent_name v.
Proof.
  unfold column, values_of. fold continent_names. revert row; induction fields as [|f fs IH]; intros [|x vs] L; try discriminate.
  cbn [show_continent]. fold continent_names. destruct (in_array f continent_names) eqn:E; cbn [combine filter fst]; rewrite E.
  - cbn [map snd]. intros Q.
    assert (x = v /\ map snd (filter (fun fv => in_array (fst fv) continent_names) (combine fs vs)) = []) as [-> Q2] by (split; congruence).
    rewrite Q2. reflexivity.
  - cbn [map snd]. intros Q. cbn in L. apply IH; [lia|assumption].
Qed.
Lemma row_ok_full ipd bs a b row : Forall2 row_ok (dIps ipd) bs ->
  lookup (store_all (combine bs (map fvals (dIps ipd)))) a = Some (b, row) -> row <> [].
Proof. intros HR L. destruct (lookup_row _ _ _ _ _ HR L) as [rr [I [[_ R1 _ _] <-]]]. assumption. Qed.

(** The fields other than the continent. *)
Definition same_but_continent (a b : IpInfo) : Prop :=
  iCountry a = iCountry b /\ iProvince a = iProvince b /\ iCity a = iCity b /\ iIsp a = iIsp b /\
  iAsn a = iAsn b /\ iLine a = iLine b /\ iDistrict a = iDistrict b.

(** C43: on every address that both readers take and some row covers, the Go and
    Rust readers differ at most in the continent: Go shows a continent that is not
    one of the seven codes as it is, Rust shows nothing. *)
Theorem C43_rust_agrees : forall marshal unmarshal unmarshal_rs lossy now ipd bs,
  Forall2 row_ok (dIps ipd) bs -> plain_columns (dFields ipd) -> dFields ipd <> [] -> json_ok marshal unmarshal now ipd ->
  json_ok32 marshal unmarshal_rs now ipd -> decodes lossy -> Forall (fun r => Forall utf8 (fvals r)) (dIps ipd) ->
  exists data, pack marshal now ipd = Ok data /\
    (Z.of_nat (length data) < 2 ^ 31 ->
     exists q r, newQuerier unmarshal data = Ok (q, []) /\ rs_new unmarshal_rs data = Ok r /\
       forall ip b row, takes (vIpType (dVersion ipd)) ip -> holds_family (vIpType (dVersion ipd)) (addr ip) = true ->
         lookup (store_all (combine bs (map fvals (dIps ipd)))) (addr ip) = Some (b, row) ->
         (length (dFields ipd) <= length row)%nat ->
         exists g x, Query q [] ip = Ok (g, prefix_len (addr ip) b) /\ rs_query lossy r ip = Ok x /\
           same_but_continent x g /\
           (forall v, values_of continent_names (dFields ipd) row = [v] ->
              iContinent g = continent_name v /\
              iContinent x = match assoc v continents with Some n => n | None => [] end)).
Proof.
  intros marshal unmarshal unmarshal_rs lossy now ipd bs HR HC HF HJ HJ32 HD HU.
  destruct (C12_pack_query marshal unmarshal now ipd bs HR HC HF HJ) as [data [E Q]].
  destruct (C43_rust_answers marshal unmarshal_rs lossy now ipd bs HR HC HJ32 HD HU) as [data' [E' Q']].
  rewrite E in E'. injection E' as <-. exists data. split; [assumption|]. intros Hs.
  destruct (Q ltac:(lia)) as [q [Oq A]]. destruct (Q' Hs) as [r [Or B]].
  exists q, r. split; [assumption|]. split; [assumption|]. intros ip b row T F L Len.
  assert (valid_ip ip) as V by (destruct T as [[T _]|[T _]]; [left|right]; assumption).
  specialize (A ip V). specialize (B ip T). unfold answer in A. rewrite F, L in A. rewrite L in B.
  replace (length row <? length (dFields ipd))%nat with false in A by lia.
  unfold rust_answer in B. rewrite skipn_all2 in B by assumption. cbn [existsb] in B.
  eexists _, _. split; [exact A|]. split; [exact B|]. split.
  - unfold same_but_continent, row_info, rust_info. cbn [iCountry iProvince iCity iIsp iAsn iLine iDistrict].
    repeat split; symmetry; apply column_show; not_continent.
  - intros v Hv. cbn [row_info rust_info iContinent]. split; [apply column_continent; assumption|].
    rewrite Hv. cbn [flat_map]. rewrite app_nil_r. unfold code_names. destruct (assoc v continents); reflexivity.
Qed.
Print Assumptions C43_rust_agrees.

(** C43: an address without record.  Go reports an error; a small database makes the
    Rust reader crash as soon as a column it looks at is not the first one, and
    otherwise answer with an empty record. *)
Theorem C43_rust_no_record : forall marshal unmarshal unmarshal_rs lossy now ipd bs,
  Forall2 row_ok (dIps ipd) bs -> plain_columns (dFields ipd) -> (2 <= length (dFields ipd))%nat -> json_ok marshal unmarshal now ipd ->
  json_ok32 marshal unmarshal_rs now ipd -> decodes lossy -> Forall (fun r => Forall utf8 (fvals r)) (dIps ipd) ->
  exists data, pack marshal now ipd = Ok data /\
    (Z.of_nat (length data) < 2 ^ 19 ->
     exists q r, newQuerier unmarshal data = Ok (q, []) /\ rs_new unmarshal_rs data = Ok r /\
       forall ip, takes (vIpType (dVersion ipd)) ip -> (forall b, In b bs -> ~ in_block b (addr ip)) ->
         Query q [] ip = Err ErrDatabaseError /\
         (Exists (fun f => In f known_columns) (tl (dFields ipd)) -> rs_query lossy r ip = Panic) /\
         (Forall (fun f => ~ In f known_columns) (tl (dFields ipd)) -> rs_query lossy r ip = Ok emptyInfo)).
Proof.
  intros marshal unmarshal unmarshal_rs lossy now ipd bs HR HC HF HJ HJ32 HD HU.
  assert (dFields ipd <> []) as HF' by (intros X; rewrite X in HF; cbn in HF; lia).
  destruct (C13_no_record marshal unmarshal now ipd bs HR HC HF' HJ) as [data [E Q]].
  destruct (C43_rust_answers marshal unmarshal_rs lossy now ipd bs HR HC HJ32 HD HU) as [data' [E' Q']].
  rewrite E in E'. injection E' as <-. exists data. split; [assumption|]. intros Hs.
  destruct (Q ltac:(lia)) as [q [Oq A]]. destruct (Q' ltac:(lia)) as [r [Or B]].
  exists q, r. split; [assumption|]. split; [assumption|]. intros ip T N.
  assert (valid_ip ip) as V by (destruct T as [[T _]|[T _]]; [left|right]; assumption).
  split; [apply (A ip (or_intror (or_intror (conj V N)))); assumption|].
  specialize (B ip T).
  destruct (lookup (store_all (combine bs (map fvals (dIps ipd)))) (addr ip)) as [[b row]|] eqn:L.
  { exfalso. unfold lookup in L. apply find_some in L as [I Bk]. cbn [fst] in Bk. apply in_blockb_iff in Bk.
    apply store_all_in in I. apply (N b); [|assumption].
    revert I. clear. generalize (map fvals (dIps ipd)). induction bs as [|x bs IH]; intros [|y l]; cbn; try tauto.
    intros [X|X]; [injection X as -> _; auto|right; eapply IH; eassumption]. }
  rewrite (B Hs). unfold rust_answer. cbn [length skipn].
  assert (forall f, in_array f known_columns = true <-> In f known_columns) as IA.
  { intros f. unfold in_array. rewrite existsb_exists. split.
    - intros [x [I Eq]]. destruct (bytes_eqb_spec f x) as [->|]; [assumption|discriminate].
    - intros I. exists f. split; [assumption|apply bytes_eqb_refl]. }
  destruct (dFields ipd) as [|f fs]; [contradiction|]. cbn [tl].
  split; intros X.
  - replace (existsb _ fs) with true; [reflexivity|]. symmetry. apply existsb_exists.
    apply Exists_exists in X as [g [I Kg]]. exists g. split; [assumption|]. apply IA. assumption.
  - replace (existsb _ fs) with false.
    2:{ symmetry. apply not_true_iff_false. intros Y. apply existsb_exists in Y as [g [I Kg]]. apply IA in Kg.
        rewrite Forall_forall in X. exact (X g I Kg). }
    unfold rust_info. f_equal.
    assert (forall names, column names (f :: fs) [[]] = []) as C0.
    { intros names. unfold column. destruct fs; cbn [combine filter fst]; destruct (in_array f names); reflexivity. }
    assert (last (flat_map code_names (values_of continent_names (f :: fs) [[]])) [] = []) as Cc.
    { unfold values_of. destruct fs; cbn [combine filter fst]; destruct (in_array f continent_names); reflexivity. }
    rewrite !C0, Cc. reflexivity.
Qed.
Print Assumptions C43_rust_no_record.

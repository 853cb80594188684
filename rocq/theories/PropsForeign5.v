(** Property theorems C77: what a query of ANY ipdb file below 2 GiB gives in Rust and in Java, also of files
    that were not written by this library or that are damaged.  The file format is that of C64. *)
From Verif Require Import Base NetIP IpNet Spec IpNetProofs SplitProofs IpNetProofs2 Inf Ipdb SpecIpdb Foreign SpecForeign Bits.
From Verif Require Import TrieProofs WriterProofs ReaderProofs OpenProofs PackProofs ForeignProofs PropsIpdb PropsForeign PropsForeign2 PropsFile.
Open Scope Z_scope.

(* ---------- specification ---------- *)
(** What is at offset p of the body: a record (two bytes with its length, then its text), nothing usable, or the
    query crashes: the offset is in the gap between the end of the body and the size of the whole file, or beyond
    32 bits. *)
Inductive outcome := Crash | NoData | Broken | Text (t : bytes).
Inductive at_offset (body : bytes) (size p : N) : outcome -> Prop :=
| at_text t : (exists a s b, body = a ++ s ++ t ++ b /\ length a = N.to_nat p /\ length s = 2%nat /\ val s = N.of_nat (length t)) -> at_offset body size p (Text t)
| at_outside : (size <= p < 2 ^ 31)%N -> at_offset body size p Broken
| at_cut l : number_at body (N.to_nat p) 2 l -> (N.of_nat (length body) < p + 2 + l)%N -> at_offset body size p Broken
| at_gap : (N.of_nat (length body) < p + 2)%N -> (p < size)%N -> at_offset body size p Crash
| at_wrapped : (2 ^ 31 <= p)%N -> at_offset body size p Crash.
(** Rust, when the bits lead to link x after k of 128 steps: links are signed, and a negative one crashes the
    reader unless it is the last. *)
Inductive rust_link (body : bytes) (size nc : N) (k : nat) (x : N) : outcome -> Prop :=
| rust_record o : (nc <= x < 2 ^ 31)%N -> at_offset body size (x + 7 * nc) o -> rust_link body size nc k x o
| rust_none : (x < nc)%N \/ (2 ^ 31 <= x)%N /\ k = 128%nat -> rust_link body size nc k x NoData
| rust_negative : (2 ^ 31 <= x)%N -> (k < 128)%nat -> rust_link body size nc k x Crash.
(** Java: links are signed too, but the offset of a negative one is computed modulo 2^32, so that the walk may go on
    at any place of the body.  None: it crashes, beyond the body. *)
Definition node_offset (n : N) (b : bool) : N := ((8 * n + if b then 4 else 0) mod 2 ^ 32)%N.
Definition is_leaf (nc n : N) : Prop := (nc <= n < 2 ^ 31)%N.
Inductive java_leads (body : bytes) (nc : N) : list bool -> N -> option N -> Prop :=
| jl_leaf bs n : is_leaf nc n -> java_leads body nc bs n (Some n)
| jl_end n : java_leads body nc [] n (Some n)
| jl_step b bs n m o : ~ is_leaf nc n -> number_at body (N.to_nat (node_offset n b)) 4 m -> java_leads body nc bs m o -> java_leads body nc (b :: bs) n o
| jl_crash b bs n : ~ is_leaf nc n -> (N.of_nat (length body) < node_offset n b + 4)%N -> java_leads body nc (b :: bs) n None.
(** An address that is not found has the record of node 0. *)
Definition java_link (body : bytes) (size nc x : N) (o : outcome) : Prop :=
  exists n, (is_leaf nc x /\ n = x \/ ~ is_leaf nc x /\ n = 0%N) /\ at_offset body size (n + 7 * nc) o.
(** The answer for the columns of a text.  Rust: from the first column on, whatever the offset of the language is;
    a known column that is missing crashes. *)
Definition file_columns : list bytes :=
  [str "country_name"; str "region_name"; str "city_name"; str "isp_domain"; str "asn"; str "line"; str "district"; str "continent_code"].
Definition rust_shown (fields cols : list bytes) : res IpInfo :=
  if existsb (fun f => in_array f file_columns) (skipn (length cols) fields) then Panic
  else Ok (mkInfo (column [str "country_name"] fields cols) (column [str "district"] fields cols) (column [str "region_name"] fields cols)
                  (column [str "city_name"] fields cols) (column [str "asn"] fields cols) (column [str "isp_domain"] fields cols)
                  (last (flat_map code_names (values_of [str "continent_code"] fields cols)) []) (column [str "line"] fields cols)).
(** Java: at most as many pieces as there are columns in all languages (the last one keeps the rest), those of the
    language from its offset on, null where there are none. *)
Definition java_pieces (m : nat) (cols : list bytes) : list bytes :=
  if (length cols <=? m)%nat then cols else firstn (m - 1) cols ++ [join x09 (skipn (m - 1) cols)].
Definition java_shown (fields : list bytes) (languages off : nat) (cols : list bytes) : res JInfo :=
  let n := length fields in
  let pieces := java_pieces (n * languages) cols in
  let parts := firstn n (map Some (skipn off pieces) ++ repeat None n) in
  if (length pieces <? off)%nat || existsb is_null (java_values [str "continent_code"] fields parts) then Panic
  else Ok (mkJInfo (java_column [str "country_name"] fields parts) (java_column [str "district"] fields parts) (java_column [str "region_name"] fields parts)
                   (java_column [str "city_name"] fields parts) (java_column [str "asn"] fields parts) (java_column [str "isp_domain"] fields parts)
                   (option_map continent_name (java_column [str "continent_code"] fields parts)) (java_column [str "line"; str "asn"] fields parts)).
(** Addresses a reader of a file takes: four bytes for IPv4, sixteen for IPv6. *)
Definition file_takes (meta : MetaData) (ip : bytes) : Prop :=
  length ip = 4%nat /\ HasIPv4 meta = true \/ length ip = 16%nat /\ HasIPv6 meta = true.

(* ---------- walks ---------- *)
Fixpoint gw (rd : Z -> bool -> res Z) (nc : Z) (bs : list bool) (n : Z) : res Z :=
  match bs with
  | [] => Ok n
  | b :: r => if nc <=? n then Ok n else let* m := rd n b in gw rd nc r m
  end.
Lemma gw_app rd nc a b : forall n, gw rd nc (a ++ b) n = let* m := gw rd nc a n in gw rd nc b m.
Proof.
  induction a as [|x a IH]; intros n; cbn [gw app bind]; [reflexivity|].
  destruct (Z.leb_spec nc n) as [L|L].
  - cbn [bind]. destruct b; cbn [gw]; [reflexivity|]. replace (nc <=? n) with true by lia. reflexivity.
  - destruct (rd n x); cbn [bind]; [apply IH|reflexivity|reflexivity|reflexivity].
Qed.
Lemma depth_loop_gw rd nc ip : forall cnt i node, (i + cnt <= length (bits ip))%nat ->
  depth_loop rd nc cnt i node ip = gw rd nc (firstn cnt (skipn i (bits ip))) node.
Proof.
  induction cnt as [|cnt IH]; intros i node L; cbn [depth_loop]; [reflexivity|].
  destruct (skipn i (bits ip)) as [|b r] eqn:E.
  { apply (f_equal (@length _)) in E. rewrite skipn_length in E. cbn in E. lia. }
  cbn [firstn gw]. destruct (nc <=? node); [reflexivity|]. rewrite (ip_bit_ok _ _ _ _ E). cbn [bind].
  destruct (rd node b); cbn [bind]; try reflexivity. rewrite IH by lia. rewrite (skipn_S' _ _ _ _ E). reflexivity.
Qed.
Lemma j_v4walk_gw rd nc : forall cnt i node, (i + cnt <= 96)%nat -> j_v4walk rd nc cnt i node = gw rd nc (firstn cnt (skipn i v4bits)) node.
Proof.
  induction cnt as [|cnt IH]; intros i node L; cbn [j_v4walk]; [reflexivity|].
  assert (skipn i v4bits = (80 <=? i)%nat :: skipn (S i) v4bits) as E.
  { assert (i < 96)%nat as L1 by lia. clear - L1. do 96 (destruct i as [|i]; [reflexivity|]). lia. }
  rewrite E. cbn [firstn gw]. destruct (Z.ltb_spec node nc) as [L1|L1].
  - replace (nc <=? node) with false by lia. destruct (rd node _); cbn [bind]; try reflexivity. apply IH. lia.
  - replace (nc <=? node) with true by lia. reflexivity.
Qed.
Lemma v4_full rd nc : gw rd nc (firstn 96 (skipn 0 v4bits)) 0 = gw rd nc v4bits 0.
Proof. f_equal. Qed.
Lemma find4_gw rd nc v4 c ip : initCache12 rd nc v4 = Ok c -> length ip = 4%nat ->
  find_node12 rd nc v4 (Some c) ip = let* n := gw rd nc (bits ip) v4 in if nc <=? n then Ok n else Err ErrDataNotExists.
Proof.
  intros HC L. pose proof (bits_len4 _ L) as Lb. unfold find_node12. rewrite L. cbn [Nat.mul Nat.add Nat.eqb].
  rewrite <- (firstn_skipn 12 (bits ip)), gw_app.
  destruct ip as [|b0 [|b1 r]]; try discriminate.
  destruct (bytesToIndex12_spec b0 b1 r) as [i [E [Hi EB]]]. rewrite E. cbn [bind].
  destruct (mapM_nth _ _ _ _ _ HC (cacheIndices12_nth i Hi)) as [e [En Es]].
  unfold idx. rewrite En. cbn [bind]. rewrite depth_loop_gw in Es by (rewrite bits_length; unfold cacheDepth12, indexToBytes12; cbn [length]; lia).
  cbn [skipn] in Es. change cacheDepth12 with 12%nat in Es. rewrite EB in Es. rewrite Es. cbn [bind].
  destruct (Z.leb_spec nc e) as [L1|L1].
  - destruct (skipn 12 (bits (b0 :: b1 :: r))); cbn [gw bind]; replace (nc <=? e) with true by lia; cbn [bind]; replace (nc <=? e) with true by lia; reflexivity.
  - rewrite depth_loop_gw by (rewrite Lb; unfold cacheDepth12; lia). change cacheDepth12 with 12%nat.
    rewrite (firstn_all2 (skipn 12 _)) by (rewrite skipn_length, Lb; lia). reflexivity.
Qed.
Lemma find6_gw rd nc v4 c ip : length ip = 16%nat ->
  find_node12 rd nc v4 c ip = let* n := gw rd nc (bits ip) 0 in if nc <=? n then Ok n else Err ErrDataNotExists.
Proof.
  intros L. pose proof (bits_len16 _ L) as Lb. unfold find_node12. rewrite L. change ((16 * 8)%nat =? 32)%nat with false. cbv iota.
  rewrite depth_loop_gw by (rewrite Lb; cbn; lia). cbn [skipn]. rewrite (firstn_all2 (bits ip)) by (rewrite Lb; cbn; lia). destruct c; reflexivity.
Qed.

(** Readers of nodes, for files with room for the nodes and below 2 GiB. *)
Definition reads_links (rd : Z -> bool -> res Z) (body : bytes) (nc : N) : Prop :=
  forall n (b : bool) m, (n < nc)%N -> number_at body (8 * N.to_nat n + (if b then 4 else 0)) 4 m -> rd (Z.of_N n) b = Ok (i32 m).
Lemma i32_neg n : (2 ^ 31 <= n < 2 ^ 32)%N -> i32 n = Z.of_N n - 2 ^ 32.
Proof. intros H. unfold i32. replace (Z.of_N n <? 2 ^ 31) with false by lia. reflexivity. Qed.
Lemma number4 body o m : number_at body o 4 m -> (m < 2 ^ 32)%N.
Proof. intros (a & s & b & _ & _ & L & <-). pose proof (val_bound s) as B. rewrite L in B. exact B. Qed.
Lemma gw_leads rd body nc : reads_links rd body nc -> (nc < 2 ^ 31)%N -> forall bs n k x, leads body nc bs n k x -> (n < 2 ^ 31)%N -> (x < 2 ^ 31)%N ->
  gw rd (Z.of_N nc) bs (Z.of_N n) = Ok (Z.of_N x).
Proof.
  intros HR Hnc bs n k x H. induction H as [bs n L|n|b bs n m k x L Hm H IH]; intros Hn Hx.
  - destruct bs; cbn [gw]; [reflexivity|]. replace (Z.of_N nc <=? Z.of_N n) with true by lia. reflexivity.
  - reflexivity.
  - cbn [gw]. replace (Z.of_N nc <=? Z.of_N n) with false by lia. rewrite (HR n b m L Hm). cbn [bind].
    assert (m < 2 ^ 31)%N as Lm by (inversion H; subst; (assumption || lia)).
    rewrite i32_ok by lia. apply IH; assumption.
Qed.
(** A reader that crashes on negative nodes. *)
Lemma gw_signed rd body nc : reads_links rd body nc -> (forall z b, - 2 ^ 31 <= z < 0 -> rd z b = Panic) -> (nc < 2 ^ 31)%N ->
  forall bs n k x, leads body nc bs n k x -> (n < 2 ^ 32)%N ->
  gw rd (Z.of_N nc) bs (i32 n) = if (x <? 2 ^ 31)%N || (k =? length bs)%nat then Ok (i32 x) else Panic.
Proof.
  intros HR HP Hnc bs n k x H. induction H as [bs n L|n|b bs n m k x L Hm H IH]; intros Hn.
  - destruct bs as [|b bs]; cbn [gw length Nat.eqb]; [rewrite orb_true_r; reflexivity|].
    destruct (N.ltb_spec n (2 ^ 31)) as [S|S]; cbn [orb].
    + rewrite i32_ok by lia. replace (Z.of_N nc <=? Z.of_N n) with true by lia. reflexivity.
    + rewrite i32_neg by lia. replace (Z.of_N nc <=? Z.of_N n - 2 ^ 32) with false by lia. rewrite HP by lia. reflexivity.
  - cbn [gw length Nat.eqb]. rewrite orb_true_r. reflexivity.
  - cbn [gw length Nat.eqb]. rewrite (i32_ok n) by lia. replace (Z.of_N nc <=? Z.of_N n) with false by lia. rewrite (HR n b m L Hm). cbn [bind].
    apply IH. eapply number4; eassumption.
Qed.
Lemma leads_small body nc bs n k x : leads body nc bs n k x -> (n < 2 ^ 32)%N -> (x < 2 ^ 32)%N.
Proof. induction 1; intros; auto. apply IHleads. eapply number4; eassumption. Qed.
Lemma leads_le body nc bs n k x : leads body nc bs n k x -> (k <= length bs)%nat.
Proof. induction 1; cbn [length]; lia. Qed.
(** The bits of the address given. *)
Definition abits_of (ip : bytes) : list bool := if (length ip =? 4)%nat then v4bits ++ bits ip else bits ip.
Lemma abits_of_ok ip : valid_ip ip -> abits_of ip = abits (addr ip).
Proof.
  unfold abits_of. intros [L|L]; rewrite L; cbn [Nat.eqb].
  - rewrite abits_v4, <- v4bits_nbits by assumption. reflexivity.
  - rewrite <- (abits_to16 ip) by (right; assumption). unfold to16. rewrite L. reflexivity.
Qed.
Lemma reached body nc ip : (8 * nc <= N.of_nat (length body))%N -> exists k x, leads body nc (abits (addr ip)) 0 k x.
Proof.
  intros L8. destruct (rwalk_total body nc (abits (addr ip)) L8 0%N) as (x & k & W). destruct (rwalk_leads _ _ _ 0%N _ _ W) as [Ld _]. eauto.
Qed.

(* ---------- Rust ---------- *)
Lemma zslice_slice (l : bytes) (a b : N) : zslice l (Z.of_N a) (Z.of_N b) = slice l (N.to_nat a) (N.to_nat b).
Proof. unfold zslice. replace (Z.of_N a <? 0) with false by lia. replace (Z.of_N b <? 0) with false by lia. f_equal; lia. Qed.
Lemma rs_reads_links body nc : (8 * nc <= N.of_nat (length body))%N -> (N.of_nat (length body) < 2 ^ 31)%N -> reads_links (rs_read_node body) body nc.
Proof.
  intros L8 LB n b m Ln Hm. unfold rs_read_node. rewrite chk32_ok by lia. cbn [bind]. rewrite chk32_ok by (destruct b; lia). cbn [bind].
  replace (Z.of_N n * 8 + (if b then 4 else 0)) with (Z.of_N (8 * n + (if b then 4 else 0))) by (destruct b; lia).
  replace (Z.of_N (8 * n + (if b then 4 else 0)) + 4) with (Z.of_N (8 * n + (if b then 4 else 0) + 4)) by lia. rewrite zslice_slice.
  apply number_slice in Hm as (s & Hs & <-).
  replace (N.to_nat (8 * n + (if b then 4 else 0)%N)) with (8 * N.to_nat n + (if b then 4 else 0))%nat by (destruct b; lia).
  replace (N.to_nat (8 * n + (if b then 4 else 0)%N + 4)) with (8 * N.to_nat n + (if b then 4 else 0) + 4)%nat by (destruct b; lia).
  rewrite Hs. reflexivity.
Qed.
Lemma rs_negative body z b : - 2 ^ 31 <= z < 0 -> rs_read_node body z b = Panic.
Proof.
  intros H. unfold rs_read_node. unfold chk32 at 1. destruct (_ && _); [|reflexivity]. cbn [bind]. unfold chk32. destruct (_ && _); [|reflexivity]. cbn [bind].
  unfold zslice. replace (z * 8 + (if b then 4 else 0) <? 0) with true by (destruct b; lia). reflexivity.
Qed.
Lemma rs_opened u data r md body meta : rs_new u data = Ok r -> file_is data md body -> (N.of_nat (length data) < 2 ^ 31)%N -> u md = Some meta ->
  rsMeta r = meta /\ rsData r = body /\ rsFileSize r = Z.of_nat (length data) /\ rsNodeCount r = mNodeCount meta /\
  (if HasIPv4 meta then exists c, rsCache r = Some c /\ initCache12 (rs_read_node body) (mNodeCount meta) (rsV4 r) = Ok c /\
     rs_v4walk (rs_read_node body) (mNodeCount meta) 96 0 0 = Ok (rsV4 r) else rsCache r = None).
Proof.
  intros O (h & Ed & Lh & Vh) Ls U.
  assert (length data = 4 + length md + length body)%nat as Ll by (rewrite Ed, !app_length; lia).
  assert (rs_meta u data = Ok (meta, Z.of_nat (length md))) as EM.
  { unfold rs_meta. replace (length data <? 4)%nat with false by lia.
    assert (slice data 0 4 = Ok h) as -> by (rewrite Ed; apply (slice_app [] h (md ++ body)); [reflexivity|rewrite Lh; reflexivity]). cbn [bind].
    rewrite Vh. rewrite i32_ok by lia. rewrite Z.mod_small by lia. replace (2 ^ 64 <=? _) with false by lia.
    replace (Z.of_nat (length data) <? _) with false by lia.
    assert (zslice data 4 (Z.of_N (N.of_nat (length md)) + 4) = Ok md) as ->.
    { unfold zslice. replace (4 <? 0) with false by lia. replace (_ + 4 <? 0) with false by lia. rewrite Ed. apply slice_app; [rewrite Lh; reflexivity|lia]. }
    cbn [bind]. rewrite U. do 2 f_equal. lia. }
  unfold rs_new in O. rewrite EM in O. cbn [bind] in O.
  destruct (chk32 _) as [t1| | |]; cbn [bind] in O; try discriminate. destruct (chk32 _) as [t2| | |]; cbn [bind] in O; try discriminate.
  destruct (negb _); [discriminate|].
  assert (zslice data (Z.of_nat (length md) + 4) (Z.of_nat (length data)) = Ok body) as E3.
  { unfold zslice. replace (_ <? 0) with false by lia. replace (Z.of_nat _ <? 0) with false by lia.
    rewrite Ed. rewrite <- (app_nil_r body) at 1. rewrite app_assoc. apply slice_app; rewrite !app_length; lia. }
  rewrite E3 in O. cbn [bind] in O. rewrite (wrap32_ok (Z.of_nat (length data))) in O by lia.
  destruct (HasIPv4 meta).
  - destruct (rs_v4walk _ _ _ _ _) as [v4| | |] eqn:V; cbn [bind] in O; try discriminate.
    destruct (initCache12 _ _ v4) as [c| | |] eqn:C; cbn [bind] in O; try discriminate.
    match type of O with Ok ?x = Ok ?y => assert (y = x) as -> by congruence end. cbn [rsMeta rsData rsFileSize rsNodeCount rsV4 rsCache].
    do 4 (split; [reflexivity|]). exists c. auto.
  - match type of O with Ok ?x = Ok ?y => assert (y = x) as -> by congruence end. cbn [rsMeta rsData rsFileSize rsNodeCount rsV4 rsCache]. repeat split.
Qed.
Lemma find_gw rd nc v4 cache ip : (length ip = 4%nat -> exists c, cache = Some c /\ initCache12 rd nc v4 = Ok c /\ gw rd nc v4bits 0 = Ok v4) -> valid_ip ip ->
  find_node12 rd nc v4 cache ip = let* n := gw rd nc (abits (addr ip)) 0 in if nc <=? n then Ok n else Err ErrDataNotExists.
Proof.
  intros H4 V. rewrite <- abits_of_ok by assumption. unfold abits_of. destruct V as [L|L]; rewrite L; cbn [Nat.eqb].
  - destruct (H4 L) as (c & -> & HC & W). rewrite gw_app, W. cbn [bind]. apply find4_gw; assumption.
  - apply find6_gw. assumption.
Qed.
Lemma rs_resolve_at lossy r nc x : rsNodeCount r = Z.of_N nc -> (8 * nc <= N.of_nat (length (rsData r)))%N -> (nc <= x < 2 ^ 31)%N ->
  Z.of_nat (length (rsData r)) <= rsFileSize r < 2 ^ 31 -> assoc (str "CN") (mLanguages (rsMeta r)) <> None ->
  exists o, at_offset (rsData r) (Z.to_N (rsFileSize r)) (x + 7 * nc) o /\
    match o with
    | Text t => rs_resolve lossy r (Z.of_N x) (str "CN") = Ok (split x09 (lossy t))
    | Broken => rs_resolve lossy r (Z.of_N x) (str "CN") = Err ErrDatabaseError
    | _ => rs_resolve lossy r (Z.of_N x) (str "CN") = Panic
    end.
Proof.
  intros En L8 Lx Lf HL. unfold rs_resolve. destruct (assoc (str "CN") _) as [off|]; [clear HL|contradiction].
  rewrite En. rewrite (chk32_ok (_ - _)) by lia. cbn [bind]. rewrite (chk32_ok (_ * 8)) by lia. cbn [bind].
  replace (Z.of_N x - Z.of_N nc + Z.of_N nc * 8) with (Z.of_N (x + 7 * nc)) by lia. set (p := (x + 7 * nc)%N).
  destruct (N.ltb_spec p (2 ^ 31)) as [Lp|Lp].
  2:{ exists Crash. split; [apply at_wrapped; assumption|]. unfold chk32. replace ((_ <=? _) && _) with false by lia. reflexivity. }
  rewrite chk32_ok by lia. cbn [bind].
  destruct (Z.leb_spec (rsFileSize r) (Z.of_N p)) as [L|L]; [exists Broken; split; [apply at_outside; lia|reflexivity]|].
  replace (Z.of_N p + 2) with (Z.of_N (p + 2)) by lia. rewrite zslice_slice.
  replace (N.to_nat (p + 2)) with (N.to_nat p + 2)%nat by lia.
  destruct (slice (rsData r) (N.to_nat p) (N.to_nat p + 2)) as [s| | |] eqn:E; cbn [bind]; try (unfold slice in E; destruct (_ && _) in E; discriminate).
  2:{ exists Crash. split; [|reflexivity]. unfold slice in E. destruct (_ && _) eqn:Q in E; [discriminate|]. apply at_gap; lia. }
  assert (number_at (rsData r) (N.to_nat p) 2 (val s)) as Hn by (apply number_slice; eauto).
  destruct (Z.ltb_spec (Z.of_nat (length (rsData r))) (Z.of_N (p + 2) + Z.of_N (val s))) as [C|C].
  { exists Broken. split; [apply at_cut with (val s); [assumption|lia]|reflexivity]. }
  replace (Z.of_N (p + 2) + Z.of_N (val s)) with (Z.of_N (p + 2 + val s)) by lia. rewrite zslice_slice.
  destruct (slice (rsData r) (N.to_nat (p + 2)) (N.to_nat (p + 2 + val s))) as [t| | |] eqn:E2; cbn [bind]; try (unfold slice in E2; destruct (_ && _) eqn:Q in E2; [discriminate|lia]).
  exists (Text t). split; [|reflexivity]. apply at_text.
  apply slice_Ok in E as [Ls1 Es]. apply slice_Ok in E2 as [Lt1 Et].
  exists (firstn (N.to_nat p) (rsData r)), s, (skipn (N.to_nat (val s)) (skipn (N.to_nat p + 2) (rsData r))).
  assert (length t = N.to_nat (val s)) as Elt by (rewrite Et, firstn_length, skipn_length; lia).
  split; [|split; [rewrite firstn_length; lia|]; split; [rewrite Es, firstn_length, skipn_length; lia|lia]].
  assert (t = firstn (N.to_nat (val s)) (skipn (N.to_nat p + 2) (rsData r))) as Et2.
  { rewrite Et. f_equal; [lia|]. f_equal. lia. }
  rewrite Et2, firstn_skipn. rewrite Es. replace (N.to_nat p + 2 - N.to_nat p)%nat with 2%nat by lia.
  rewrite (Nat.add_comm (N.to_nat p) 2), <- (skipn_two 2). rewrite !firstn_skipn. reflexivity.
Qed.
Lemma colv_values name fields values : colv name (combine fields values) = values_of [name] fields values.
Proof.
  unfold colv, values_of. revert values; induction fields as [|f fs IH]; intros [|v vs]; try reflexivity.
  cbn [combine filter fst]. unfold in_array at 1. cbn [existsb]. rewrite orb_false_r. destruct (bytes_eqb f name); cbn [map]; rewrite IH; reflexivity.
Qed.
Lemma rs_build_shown fields cols : rs_build_info cols fields = rust_shown fields cols.
Proof.
  unfold rs_build_info, rust_shown. rewrite rs_build_spec, rs_fold. rewrite Nat.sub_0_r. cbn [skipn]. change known1 with file_columns.
  rewrite !colc_column, colv_values. reflexivity.
Qed.

(** C77: every query of every file that Rust opens, whatever is in it. *)
Theorem C77_rust_answer : forall unmarshal lossy data r md body meta,
  rs_new unmarshal data = Ok r -> file_is data md body -> (N.of_nat (length data) < 2 ^ 31)%N -> unmarshal md = Some meta ->
  0 < mNodeCount meta -> 8 * mNodeCount meta <= Z.of_nat (length body) -> assoc (str "CN") (mLanguages meta) <> None ->
  let nc := Z.to_N (mNodeCount meta) in
  forall ip, file_takes meta ip ->
  exists k x o, leads body nc (abits (addr ip)) 0 k x /\ rust_link body (N.of_nat (length data)) nc k x o /\
    match o with
    | Crash => rs_query lossy r ip = Panic
    | NoData => rs_query lossy r ip = Err ErrDataNotExists
    | Broken => rs_query lossy r ip = Err ErrDatabaseError
    | Text t => exists cols, columns (lossy t) cols /\ rs_query lossy r ip = rust_shown (mFields meta) cols
    end.
Proof.
  intros u lossy data r md body meta O F Ls U P0 P8 HL nc ip T.
  destruct (rs_opened _ _ _ _ _ _ O F Ls U) as (E1 & E2 & E3 & E4 & E5).
  assert (mNodeCount meta = Z.of_N nc) as Enc by (unfold nc; lia).
  assert (length body <= length data)%nat as Lb by (destruct F as (h & -> & _); rewrite !app_length; lia).
  assert (8 * nc <= N.of_nat (length body))%N as L8 by lia. assert (N.of_nat (length body) < 2 ^ 31)%N as LB by lia.
  assert (valid_ip ip) as V by (destruct T as [[? _]|[? _]]; [left|right]; assumption).
  assert (gw (rs_read_node body) (Z.of_N nc) v4bits 0 = rs_v4walk (rs_read_node body) (Z.of_N nc) 96 0 0) as Wv.
  { rewrite rs_v4walk_j by lia. rewrite j_v4walk_gw by lia. reflexivity. }
  assert (rs_find0 r ip = let* n := gw (rs_read_node body) (Z.of_N nc) (abits (addr ip)) 0 in if Z.of_N nc <=? n then Ok n else Err ErrDataNotExists) as E0.
  { unfold rs_find0. rewrite E1, E2, E4, Enc.
    assert (find_node12 (rs_read_node body) (Z.of_N nc) (rsV4 r) (rsCache r) ip = let* n := gw (rs_read_node body) (Z.of_N nc) (abits (addr ip)) 0 in if Z.of_N nc <=? n then Ok n else Err ErrDataNotExists) as E.
    { apply find_gw; [|assumption]. intros L4. destruct T as [[_ H4]|[L _]]; [|lia]. rewrite H4 in E5. destruct E5 as (c & -> & C & W).
      exists c. rewrite Enc in C, W. rewrite Wv. auto. }
    destruct T as [[L H4]|[L H6]]; rewrite L; cbn [Nat.eqb]; rewrite ?H4, ?H6; exact E. }
  destruct (reached body nc ip L8) as (k & x & Ld).
  assert (length (abits (addr ip)) = 128%nat) as L128 by (unfold abits; apply nbits_length).
  pose proof (leads_le _ _ _ _ _ _ Ld) as Lk. rewrite L128 in Lk.
  pose proof (leads_small _ _ _ _ _ _ Ld ltac:(lia)) as Lx.
  pose proof (gw_signed _ _ _ (rs_reads_links body nc L8 LB) (rs_negative body) ltac:(lia) _ _ _ _ Ld ltac:(lia)) as W.
  change (i32 0) with 0 in W. rewrite L128 in W. rewrite W in E0. clear W.
  unfold rs_query, rs_find. rewrite E0, E1. exists k, x.
  destruct (N.ltb_spec x (2 ^ 31)) as [S|S]; cbn [orb bind].
  - rewrite i32_ok by lia. destruct (Z.leb_spec (Z.of_N nc) (Z.of_N x)) as [L|L]; cbn [bind].
    + destruct (rs_resolve_at lossy r nc x) as (o & A & R); [rewrite E4; assumption|rewrite E2; assumption|lia|rewrite E2, E3; lia|rewrite E1; assumption|].
      rewrite E2, E3 in A. replace (Z.to_N (Z.of_nat (length data))) with (N.of_nat (length data)) in A by lia.
      exists o. split; [assumption|]. split; [apply rust_record; [lia|assumption]|].
      destruct o as [| | |t]; try (rewrite R; reflexivity); [inversion A|].
      exists (split x09 (lossy t)). split; [split; [apply split_nonnil|split; [apply split_no_byte|apply join_split]]|].
      rewrite R. cbn [bind]. apply rs_build_shown.
    + exists NoData. split; [assumption|]. split; [apply rust_none; left; lia|reflexivity].
  - destruct (Nat.eqb_spec k 128) as [Ek|Ek]; cbn [bind].
    + rewrite i32_neg by lia. replace (Z.of_N nc <=? Z.of_N x - 2 ^ 32) with false by lia. cbn [bind].
      exists NoData. split; [assumption|]. split; [apply rust_none; right; auto|reflexivity].
    + exists Crash. split; [assumption|]. split; [apply rust_negative; [assumption|lia]|reflexivity].
Qed.

(* ---------- which files open ---------- *)
Lemma mapM_total_or {A B} (f : A -> res B) l : (forall a, f a = Panic \/ exists b, f a = Ok b) ->
  (exists bs, mapM f l = Ok bs) \/ mapM f l = Panic /\ exists a, In a l /\ f a = Panic.
Proof.
  intros H. induction l as [|a l IH]; cbn [mapM]; [left; eauto|].
  destruct (H a) as [E|[b E]]; rewrite E; cbn [bind]; [right; split; [reflexivity|exists a; split; [left; reflexivity|assumption]]|].
  destruct IH as [[bs ->]|[-> (a' & I & P)]]; cbn [bind]; [left; eauto|right; split; [reflexivity|exists a'; split; [right; assumption|assumption]]].
Qed.
Definition total_or (rd : Z -> bool -> res Z) : Prop := forall z b, rd z b = Panic \/ exists m, rd z b = Ok m.
Lemma gw_total_or rd nc : total_or rd -> forall bs n, gw rd nc bs n = Panic \/ exists m, gw rd nc bs n = Ok m.
Proof.
  intros H. induction bs as [|b bs IH]; intros n; cbn [gw]; [right; eauto|]. destruct (_ <=? _); [right; eauto|].
  destruct (H n b) as [->|[m ->]]; cbn [bind]; [left; reflexivity|apply IH].
Qed.
Lemma opens_gw rd nc : total_or rd ->
  let good := forall ip, length ip = 4%nat -> exists x, gw rd nc (firstn 108 (v4bits ++ bits ip)) 0 = Ok x in
  (exists v4 c, gw rd nc v4bits 0 = Ok v4 /\ initCache12 rd nc v4 = Ok c) /\ good \/
  (gw rd nc v4bits 0 = Panic \/ exists v4, gw rd nc v4bits 0 = Ok v4 /\ initCache12 rd nc v4 = Panic) /\ ~ good.
Proof.
  intros H good.
  assert (F : forall ip, firstn 108 (v4bits ++ bits ip) = v4bits ++ firstn 12 (bits ip)) by (intros ip; reflexivity).
  destruct (gw_total_or rd nc H v4bits 0) as [E|[v4 E]].
  - right. split; [auto|]. intros G. destruct (G [x00; x00; x00; x00] eq_refl) as [x Gx]. rewrite F, gw_app, E in Gx. discriminate.
  - assert (D : forall i, depth_loop rd nc cacheDepth12 0 v4 (indexToBytes12 i) = gw rd nc (firstn 12 (bits (indexToBytes12 i))) v4).
    { intros i. rewrite depth_loop_gw by (rewrite bits_length; unfold cacheDepth12, indexToBytes12; cbn [length]; lia). reflexivity. }
    destruct (mapM_total_or (fun i => depth_loop rd nc cacheDepth12 0 v4 (indexToBytes12 i)) cacheIndices12) as [[c C]|[C (i & _ & P)]].
    + intros i. rewrite D. apply gw_total_or. assumption.
    + left. split; [exists v4, c; auto|]. intros ip L. rewrite F, gw_app, E. cbn [bind].
      destruct ip as [|b0 [|b1 r]]; try discriminate. destruct (bytesToIndex12_spec b0 b1 r) as [i [_ [Hi EB]]].
      destruct (mapM_nth _ _ _ _ _ C (cacheIndices12_nth i Hi)) as [e [_ Es]]. rewrite D, EB in Es. eauto.
    + right. split; [right; exists v4; auto|]. intros G. rewrite D in P.
      destruct (indexToBytes12 i) as [|b0 [|b1 [|b2 bl]]] eqn:Ei; try (exfalso; apply (f_equal (@length _)) in Ei; cbn in Ei; lia).
      destruct (G [b0; b1; x00; x00] eq_refl) as (x & Gx). rewrite F, gw_app, E in Gx. cbn [bind] in Gx.
      change (firstn 12 (bits [b0; b1; x00; x00])) with (firstn 12 (bits [b0; b1])) in Gx. congruence.
Qed.
Lemma slice_total_or (l : bytes) a b : slice l a b = Panic \/ exists s, slice l a b = Ok s.
Proof. unfold slice. destruct (_ && _); eauto. Qed.
Lemma zslice_total_or (l : bytes) a b : zslice l a b = Panic \/ exists s, zslice l a b = Ok s.
Proof. unfold zslice. destruct (_ <? _); [left; reflexivity|]. destruct (_ <? _); [left; reflexivity|]. apply slice_total_or. Qed.
Lemma chk32_or z : chk32 z = Panic \/ chk32 z = Ok z.
Proof. unfold chk32. destruct (_ && _); auto. Qed.
Lemma rs_total_or body : total_or (rs_read_node body).
Proof.
  intros z b. unfold rs_read_node. destruct (chk32_or (z * 8)) as [->| ->]; cbn [bind]; [left; reflexivity|].
  destruct (chk32_or (z * 8 + if b then 4 else 0)) as [->| ->]; cbn [bind]; [left; reflexivity|].
  match goal with |- context [zslice ?l ?x ?y] => destruct (zslice_total_or l x y) as [->|[s ->]] end; cbn [bind]; [left; reflexivity|right; eexists; reflexivity].
Qed.
(** The first 108 bits of the numbers of IPv4 addresses: what is walked on opening. *)
Definition ipv4_walks (walk : list bool -> Prop) (meta : MetaData) : Prop :=
  HasIPv4 meta = true -> forall ip, length ip = 4%nat -> walk (firstn 108 (abits (addr ip))).
Lemma abits4 ip : length ip = 4%nat -> abits (addr ip) = v4bits ++ bits ip.
Proof. intros L. pose proof (abits_of_ok ip (or_introl L)) as E. unfold abits_of in E. rewrite L in E. symmetry. exact E. Qed.
Lemma len108 ip : length ip = 4%nat -> length (firstn 108 (abits (addr ip))) = 108%nat.
Proof. intros L. rewrite abits4 by assumption. rewrite firstn_length, app_length, (bits_len4 _ L). reflexivity. Qed.
(** C77: a file with room for its nodes and a complete description opens exactly when no IPv4 address meets a negative
    link within its first 108 steps, the last excepted; otherwise opening it crashes. *)
Theorem C77_rust_opens : forall unmarshal data md body meta,
  file_is data md body -> (N.of_nat (length data) < 2 ^ 31)%N -> unmarshal md = Some meta ->
  0 < mNodeCount meta -> 8 * mNodeCount meta <= Z.of_nat (length body) -> mTotalSize meta = Z.of_nat (length body) ->
  let walked := ipv4_walks (fun bs => exists k x, leads body (Z.to_N (mNodeCount meta)) bs 0 k x /\ ((x < 2 ^ 31)%N \/ k = 108%nat)) meta in
  (exists r, rs_new unmarshal data = Ok r) /\ walked \/ rs_new unmarshal data = Panic /\ ~ walked.
Proof.
  intros u data md body meta (h & Ed & Lh & Vh) Ls U P0 P8 HT walked.
  assert (length data = 4 + length md + length body)%nat as Ll by (rewrite Ed, !app_length; lia).
  assert (rs_meta u data = Ok (meta, Z.of_nat (length md))) as EM.
  { unfold rs_meta. replace (length data <? 4)%nat with false by lia.
    assert (slice data 0 4 = Ok h) as -> by (rewrite Ed; apply (slice_app [] h (md ++ body)); [reflexivity|rewrite Lh; reflexivity]). cbn [bind].
    rewrite Vh. rewrite i32_ok by lia. rewrite Z.mod_small by lia. replace (2 ^ 64 <=? _) with false by lia.
    replace (Z.of_nat (length data) <? _) with false by lia.
    assert (zslice data 4 (Z.of_N (N.of_nat (length md)) + 4) = Ok md) as ->.
    { unfold zslice. replace (4 <? 0) with false by lia. replace (_ + 4 <? 0) with false by lia. rewrite Ed. apply slice_app; [rewrite Lh; reflexivity|lia]. }
    cbn [bind]. rewrite U. do 2 f_equal. lia. }
  assert (rs_new u data = if HasIPv4 meta then
      let* v4 := rs_v4walk (rs_read_node body) (mNodeCount meta) 96 0 0 in
      let* c := initCache12 (rs_read_node body) (mNodeCount meta) v4 in
      Ok (mkRReader meta (Z.of_nat (length data)) (mNodeCount meta) body v4 (Some c))
    else Ok (mkRReader meta (Z.of_nat (length data)) (mNodeCount meta) body 0 None)) as EN.
  { unfold rs_new. rewrite EM. cbn [bind]. rewrite HT. rewrite (wrap32_ok (Z.of_nat (length md))) by lia.
    rewrite chk32_ok by lia. cbn [bind]. rewrite chk32_ok by lia. cbn [bind]. rewrite (wrap32_ok (Z.of_nat (length data))) by lia.
    replace (negb _) with false by (symmetry; apply negb_false_iff, Z.eqb_eq; lia).
    assert (zslice data (Z.of_nat (length md) + 4) (Z.of_nat (length data)) = Ok body) as ->; [|reflexivity].
    unfold zslice. replace (_ <? 0) with false by lia. replace (Z.of_nat _ <? 0) with false by lia.
    rewrite Ed. rewrite <- (app_nil_r body) at 1. rewrite app_assoc. apply slice_app; rewrite !app_length; lia. }
  rewrite EN. clear EN EM. unfold walked, ipv4_walks. destruct (HasIPv4 meta); [|left; split; [eauto|discriminate]].
  set (nc := Z.to_N (mNodeCount meta)) in *. replace (mNodeCount meta) with (Z.of_N nc) in * by (unfold nc; lia).
  assert (8 * nc <= N.of_nat (length body))%N as L8 by lia. assert (N.of_nat (length body) < 2 ^ 31)%N as LB by lia.
  rewrite rs_v4walk_j by lia. rewrite j_v4walk_gw by lia. rewrite v4_full.
  assert (Q : forall ip, length ip = 4%nat -> (exists x, gw (rs_read_node body) (Z.of_N nc) (firstn 108 (v4bits ++ bits ip)) 0 = Ok x) <->
    exists k x, leads body nc (firstn 108 (abits (addr ip))) 0 k x /\ ((x < 2 ^ 31)%N \/ k = 108%nat)).
  { intros ip L. rewrite <- abits4 by assumption. pose proof (len108 ip L) as L108. set (bs := firstn 108 (abits (addr ip))) in *.
    assert (W : forall k x, leads body nc bs 0 k x -> gw (rs_read_node body) (Z.of_N nc) bs 0 = if (x <? 2 ^ 31)%N || (k =? 108)%nat then Ok (i32 x) else Panic).
    { intros k x Ld. rewrite <- L108. change 0 with (i32 0) at 1. apply (gw_signed _ body); [apply rs_reads_links; assumption|apply rs_negative|lia|assumption|lia]. }
    destruct (rwalk_total body nc bs L8 0%N) as (x & k & Wk). destruct (rwalk_leads _ _ _ 0%N _ _ Wk) as [Ld _]. split.
    - intros [y Y]. rewrite (W _ _ Ld) in Y. exists k, (Z.to_N x). split; [assumption|].
      destruct (N.ltb_spec (Z.to_N x) (2 ^ 31)); [left; assumption|]. destruct (Nat.eqb_spec k 108); [right; assumption|]. discriminate.
    - intros (k' & x' & Ld' & C). rewrite (W _ _ Ld'). exists (i32 x').
      destruct (N.ltb_spec x' (2 ^ 31)); [reflexivity|]. destruct (Nat.eqb_spec k' 108); [reflexivity|]. lia. }
  destruct (opens_gw _ (Z.of_N nc) (rs_total_or body)) as [[(v4 & c & E & C) G]|[B G]].
  - left. rewrite E. cbn [bind]. rewrite C. cbn [bind]. split; [eauto|]. intros _ ip L. apply Q; auto.
  - right. split.
    + destruct B as [->|(v4 & -> & C)]; cbn [bind]; [reflexivity|]. rewrite C. reflexivity.
    + intros X. apply G. intros ip L. apply Q; auto.
Qed.

(* ---------- Java ---------- *)
Lemma j_opened u data r md body meta : j_new u data = Ok r -> file_is data md body -> (N.of_nat (length data) < 2 ^ 31)%N -> u md = Some meta ->
  jrMeta r = meta /\ jrData r = body /\ jrFileSize r = Z.of_nat (length data) /\ jrNodeCount r = mNodeCount meta /\
  (if HasIPv4 meta then exists c, jrCache r = Some c /\ initCache12 (j_read_node body) (mNodeCount meta) (jrV4 r) = Ok c /\
     j_v4walk (j_read_node body) (mNodeCount meta) 96 0 0 = Ok (jrV4 r) else jrCache r = None).
Proof.
  intros O (h & Ed & Lh & Vh) Ls U.
  assert (length data = 4 + length md + length body)%nat as Ll by (rewrite Ed, !app_length; lia).
  unfold j_new in O. destruct (_ <? 5); [discriminate|].
  assert (slice data 0 4 = Ok h) as E1 by (rewrite Ed; apply (slice_app [] h (md ++ body)); [reflexivity|rewrite Lh; reflexivity]).
  rewrite E1 in O. cbn [bind] in O. rewrite Vh in O. rewrite i32_ok in O by lia. rewrite wrap32_ok in O by lia.
  assert (zslice data 4 (Z.of_N (N.of_nat (length md)) + 4) = Ok md) as E2.
  { unfold zslice. replace (4 <? 0) with false by lia. replace (_ + 4 <? 0) with false by lia. rewrite Ed. apply slice_app; [rewrite Lh; reflexivity|lia]. }
  rewrite (copyOfRange_zslice _ _ _ _ E2) in O. rewrite U in O. cbn [bind] in O.
  destruct (negb _); [discriminate|].
  assert (zslice data (Z.of_N (N.of_nat (length md)) + 4) (Z.of_nat (length data)) = Ok body) as E3.
  { unfold zslice. replace (_ <? 0) with false by lia. replace (Z.of_nat _ <? 0) with false by lia.
    rewrite Ed. rewrite <- (app_nil_r body) at 1. rewrite app_assoc. apply slice_app; rewrite !app_length; lia. }
  rewrite (copyOfRange_zslice _ _ _ _ E3) in O. cbn [bind] in O.
  destruct (HasIPv4 meta).
  - destruct (j_v4walk _ _ _ _ _) as [v4| | |] eqn:V; cbn [bind] in O; try discriminate.
    destruct (initCache12 _ _ v4) as [c| | |] eqn:C; cbn [bind] in O; try discriminate.
    match type of O with Ok ?x = Ok ?y => assert (y = x) as -> by congruence end. cbn [jrMeta jrData jrFileSize jrNodeCount jrV4 jrCache].
    do 4 (split; [reflexivity|]). exists c. auto.
  - match type of O with Ok ?x = Ok ?y => assert (y = x) as -> by congruence end. cbn [jrMeta jrData jrFileSize jrNodeCount jrV4 jrCache]. repeat split.
Qed.
Lemma firstn_repeat {A} (x : A) b : forall a, firstn a (repeat x b) = repeat x (Nat.min a b).
Proof. induction b as [|b IH]; intros [|a]; cbn [firstn repeat Nat.min]; try reflexivity. rewrite IH. reflexivity. Qed.
Lemma firstn_pad {A} (x : A) n l : firstn n l ++ repeat x (n - length (firstn n l)) = firstn n (l ++ repeat x n).
Proof. rewrite firstn_app, firstn_repeat, firstn_length. f_equal. f_equal. lia. Qed.
Lemma copy_pieces (l : list bytes) off n : copyOfRange None (map Some l) (Z.of_nat off) (Z.of_nat off + Z.of_nat n) =
  if (length l <? off)%nat then Panic else Ok (firstn n (map Some (skipn off l) ++ repeat None n)).
Proof.
  unfold copyOfRange. replace (Z.of_nat off + Z.of_nat n <? Z.of_nat off) with false by lia. rewrite map_length.
  replace (Z.of_nat off <? 0) with false by lia. cbn [orb]. replace (Z.of_nat (length l) <? Z.of_nat off) with (length l <? off)%nat by lia.
  destruct (Nat.ltb_spec (length l) off) as [L|L]; [reflexivity|]. f_equal.
  replace (Z.to_nat (Z.of_nat off + Z.of_nat n - Z.of_nat off)) with n by lia. rewrite Nat2Z.id, skipn_map. apply firstn_pad.
Qed.
Lemma java_split_pieces m cols : (0 < m)%nat -> cols <> [] -> Forall (no_byte x09) cols -> java_split (join x09 cols) m = java_pieces m cols.
Proof.
  intros Hm Nc Fc. destruct m as [|m]; [lia|]. unfold java_split, java_pieces. rewrite split_max_join by assumption. replace (S m - 1)%nat with m by lia. reflexivity.
Qed.
Lemma j_resolve_at lossy r nc p node off : jrNodeCount r = Z.of_N nc -> (8 * nc <= N.of_nat (length (jrData r)))%N -> 0 <= node < 2 ^ 31 ->
  node + 7 * Z.of_N nc = Z.of_N p ->
  Z.of_nat (length (jrData r)) <= jrFileSize r -> jrFileSize r + 2 ^ 17 <= 2 ^ 31 ->
  assoc (str "CN") (mLanguages (jrMeta r)) = Some (Z.of_nat off) -> mFields (jrMeta r) <> [] ->
  exists o, at_offset (jrData r) (Z.to_N (jrFileSize r)) p o /\
    match o with
    | Text t => j_resolve lossy r node (str "CN") =
        let n := length (mFields (jrMeta r)) in
        let pieces := java_pieces (n * length (mLanguages (jrMeta r))) (split x09 (lossy t)) in
        if (length pieces <? off)%nat then Panic else Ok (Some (firstn n (map Some (skipn off pieces) ++ repeat None n)))
    | Broken => j_resolve lossy r node (str "CN") = Err ErrDatabaseError
    | _ => j_resolve lossy r node (str "CN") = Panic
    end.
Proof.
  intros En L8 Ln Ep Lf Lf2 HL Nf. unfold j_resolve. rewrite HL, En.
  assert (Z.of_N p < 2 ^ 32) as Lp32 by lia.
  assert (wrap32 (wrap32 (node - Z.of_N nc) + wrap32 (Z.of_N nc * 8)) = if (p <? 2 ^ 31)%N then Z.of_N p else Z.of_N p - 2 ^ 32) as ->.
  { rewrite (wrap32_ok (node - _)) by lia. rewrite (wrap32_ok (_ * 8)) by lia. replace (node - Z.of_N nc + Z.of_N nc * 8) with (Z.of_N p) by lia.
    destruct (N.ltb_spec p (2 ^ 31)) as [L|L]; [apply wrap32_ok; lia|]. unfold wrap32.
    replace (Z.of_N p + 2 ^ 31) with (Z.of_N p - 2 ^ 31 + 1 * 2 ^ 32) by lia. rewrite Z.mod_add by lia. rewrite Z.mod_small by lia. lia. }
  destruct (N.ltb_spec p (2 ^ 31)) as [Lp|Lp].
  2:{ exists Crash. split; [apply at_wrapped; assumption|]. replace (jrFileSize r <=? _) with false by lia. unfold zidx. replace (_ <? 0) with true by lia. reflexivity. }
  destruct (Z.leb_spec (jrFileSize r) (Z.of_N p)) as [L|L]; [exists Broken; split; [apply at_outside; lia|reflexivity]|].
  rewrite (wrap32_ok (Z.of_N p + 1)) by lia.
  destruct (slice (jrData r) (N.to_nat p) (N.to_nat p + 2)) as [s| | |] eqn:E; try (unfold slice in E; destruct (_ && _) in E; discriminate).
  2:{ exists Crash. assert (N.of_nat (length (jrData r)) < p + 2)%N as Lg by (unfold slice in E; destruct (_ && _) eqn:Q in E; [discriminate|lia]).
      split; [apply at_gap; lia|]. unfold zidx at 2. replace (Z.of_N p + 1 <? 0) with false by lia. unfold idx.
      assert (nth_error (jrData r) (Z.to_nat (Z.of_N p + 1)) = None) as -> by (apply nth_error_None; lia). cbn [bind].
      unfold zidx. destruct (_ <? 0); [reflexivity|]. unfold idx. destruct (nth_error _ _); reflexivity. }
  pose proof (slice_Ok _ _ _ _ E) as [Ls1 Es].
  assert (number_at (jrData r) (N.to_nat p) 2 (val s)) as Hn by (apply number_slice; eauto).
  assert (zslice (jrData r) (Z.of_N p) (Z.of_N p + Z.of_nat 2) = Ok s) as Ez.
  { unfold zslice. replace (Z.of_N p <? 0) with false by lia. replace (_ + _ <? 0) with false by lia. rewrite <- E. f_equal; lia. }
  destruct (zslice_len _ _ _ _ Ez) as [L2 _]. destruct s as [|a [|b [|? ?]]]; try discriminate.
  pose proof (zslice_idx _ _ _ _ 0 a Ez eq_refl) as E0. pose proof (zslice_idx _ _ _ _ 1 b Ez eq_refl) as E1.
  change (Z.of_nat 0) with 0 in E0. change (Z.of_nat 1) with 1 in E1. rewrite Z.add_0_r in E0. rewrite E0, E1. cbn [bind].
  set (s := [a; b]) in *. assert (val s < 2 ^ 16)%N as Bs by (pose proof (val_bound s) as B; rewrite L2 in B; exact B).
  rewrite (wrap32_ok (Z.of_N p + 2 + _)) by lia. rewrite (wrap32_ok (Z.of_N p + 2)) by lia.
  destruct (Z.ltb_spec (Z.of_nat (length (jrData r))) (Z.of_N p + 2 + Z.of_N (val s))) as [C|C].
  { exists Broken. split; [apply at_cut with (val s); [assumption|lia]|reflexivity]. }
  replace (Z.of_N p + 2 + Z.of_N (val s)) with (Z.of_N (p + 2 + val s)) by lia. replace (Z.of_N p + 2) with (Z.of_N (p + 2)) by lia. rewrite zslice_slice.
  destruct (slice (jrData r) (N.to_nat (p + 2)) (N.to_nat (p + 2 + val s))) as [t| | |] eqn:E2; cbn [bind]; try (unfold slice in E2; destruct (_ && _) eqn:Q in E2; [discriminate|lia]).
  exists (Text t). split.
  - apply at_text. apply slice_Ok in E2 as [Lt1 Et].
    exists (firstn (N.to_nat p) (jrData r)), s, (skipn (N.to_nat (val s)) (skipn (N.to_nat p + 2) (jrData r))).
    assert (length t = N.to_nat (val s)) as Elt by (rewrite Et, firstn_length, skipn_length; lia).
    split; [|split; [rewrite firstn_length; lia|]; split; [assumption|lia]].
    assert (t = firstn (N.to_nat (val s)) (skipn (N.to_nat p + 2) (jrData r))) as Et2.
    { rewrite Et. f_equal; [lia|]. f_equal. lia. }
    rewrite Et2, firstn_skipn. rewrite Es. replace (N.to_nat p + 2 - N.to_nat p)%nat with 2%nat by lia.
    rewrite (Nat.add_comm (N.to_nat p) 2), <- (skipn_two 2). rewrite !firstn_skipn. reflexivity.
  - cbv zeta. rewrite <- java_split_pieces.
    + rewrite join_split, copy_pieces. destruct (_ <? off)%nat; reflexivity.
    + destruct (mFields (jrMeta r)) as [|f fs]; [congruence|]. destruct (mLanguages (jrMeta r)) as [|l ls]; [discriminate HL|]. cbn [length]. lia.
    + apply split_nonnil.
    + apply split_no_byte.
Qed.
Lemma bad_values fields parts : existsb bad (combine fields parts) = existsb is_null (java_values [str "continent_code"] fields parts).
Proof.
  unfold java_values. induction (combine fields parts) as [|[f v] l IH]; [reflexivity|]. cbn [existsb filter fst]. unfold bad at 1. cbn [fst snd].
  unfold in_array at 1. cbn [existsb]. rewrite orb_false_r. destruct (bytes_eqb f (str "continent_code")); cbn [map snd existsb andb orb]; rewrite IH; reflexivity.
Qed.
Lemma j_build_shown fields parts : (length parts <= length fields)%nat -> j_build parts 0 fields emptyJInfo =
  if existsb is_null (java_values [str "continent_code"] fields parts) then Panic
  else Ok (mkJInfo (java_column [str "country_name"] fields parts) (java_column [str "district"] fields parts) (java_column [str "region_name"] fields parts)
                   (java_column [str "city_name"] fields parts) (java_column [str "asn"] fields parts) (java_column [str "isp_domain"] fields parts)
                   (option_map continent_name (java_column [str "continent_code"] fields parts)) (java_column [str "line"; str "asn"] fields parts)).
Proof.
  intros L. rewrite j_build_spec by lia. cbn [skipn]. rewrite <- bad_values. destruct (existsb bad _) eqn:B; [reflexivity|]. rewrite j_fold by assumption. reflexivity.
Qed.

(** 32-bit wrap-around *)
Lemma wrap32_add z q : wrap32 (z + q * 2 ^ 32) = wrap32 z.
Proof. unfold wrap32. replace (z + q * 2 ^ 32 + 2 ^ 31) with (z + 2 ^ 31 + q * 2 ^ 32) by lia. rewrite Z.mod_add by lia. reflexivity. Qed.
Lemma wrap32_is z : exists q, wrap32 z = z + q * 2 ^ 32.
Proof. unfold wrap32. exists (- ((z + 2 ^ 31) / 2 ^ 32)). pose proof (Z.div_mod (z + 2 ^ 31) (2 ^ 32) ltac:(lia)). lia. Qed.
Lemma wrap32_wrap a c : wrap32 (wrap32 a + c) = wrap32 (a + c).
Proof. destruct (wrap32_is a) as [q ->]. replace (a + q * 2 ^ 32 + c) with (a + c + q * 2 ^ 32) by lia. apply wrap32_add. Qed.
Lemma wrap32_N n : wrap32 (Z.of_N n) = i32 (n mod 2 ^ 32).
Proof.
  pose proof (N.div_mod n (2 ^ 32) ltac:(lia)) as D. pose proof (N.mod_lt n (2 ^ 32) ltac:(lia)) as B. set (q := (n / 2 ^ 32)%N) in *. set (r := (n mod 2 ^ 32)%N) in *.
  replace (Z.of_N n) with (Z.of_N r + Z.of_N q * 2 ^ 32) by lia. rewrite wrap32_add. unfold i32.
  destruct (Z.ltb_spec (Z.of_N r) (2 ^ 31)); [apply wrap32_ok; lia|]. replace (Z.of_N r) with (Z.of_N r - 2 ^ 32 + 1 * 2 ^ 32) at 1 by lia. rewrite wrap32_add. apply wrap32_ok. lia.
Qed.
Lemma i32_is n : exists q, i32 n = Z.of_N n + q * 2 ^ 32.
Proof. unfold i32. destruct (_ <? _); [exists 0|exists (-1)]; lia. Qed.
Lemma j_offset n (b : bool) : wrap32 (wrap32 (i32 n * 8) + (if b then 4 else 0)) = i32 (node_offset n b).
Proof.
  rewrite wrap32_wrap. destruct (i32_is n) as [q ->]. replace ((Z.of_N n + q * 2 ^ 32) * 8 + (if b then 4 else 0)) with (Z.of_N (8 * n + if b then 4 else 0) + (8 * q) * 2 ^ 32) by (destruct b; lia).
  rewrite wrap32_add, wrap32_N. reflexivity.
Qed.
Lemma zidx_out {A} (l : list A) i : 0 <= i -> Z.of_nat (length l) <= i -> zidx l i = Panic.
Proof. intros H0 L. unfold zidx. replace (i <? 0) with false by lia. unfold idx. assert (nth_error l (Z.to_nat i) = None) as -> by (apply nth_error_None; lia). reflexivity. Qed.
Lemma zidx_any {A} (l : list A) i : zidx l i = Panic \/ exists x, zidx l i = Ok x.
Proof. unfold zidx. destruct (_ <? _); [auto|]. unfold idx. destruct (nth_error _ _); eauto. Qed.
Lemma j_read_any body n (b : bool) : (N.of_nat (length body) + 4 <= 2 ^ 31)%N ->
  (exists m, number_at body (N.to_nat (node_offset n b)) 4 m /\ j_read_node body (i32 n) b = Ok (i32 m)) \/
  (N.of_nat (length body) < node_offset n b + 4)%N /\ j_read_node body (i32 n) b = Panic.
Proof.
  intros LB. unfold j_read_node. rewrite j_offset. assert (node_offset n b < 2 ^ 32)%N as Lo by (apply N.mod_lt; lia). set (o := node_offset n b) in *. clearbody o.
  destruct (N.leb_spec (o + 4) (N.of_nat (length body))) as [L|L].
  - left. rewrite i32_ok by lia.
    destruct (slice body (N.to_nat o) (N.to_nat o + 4)) as [s| | |] eqn:E; try (unfold slice in E; destruct (_ && _) eqn:Q in E; [discriminate|lia]).
    exists (val s). split; [apply number_slice; eauto|].
    assert (zslice body (Z.of_N o) (Z.of_N o + Z.of_nat 4) = Ok s) as E'.
    { unfold zslice. replace (Z.of_N o <? 0) with false by lia. replace (_ + _ <? 0) with false by lia. rewrite <- E. f_equal; lia. }
    destruct (zslice_len _ _ _ _ E') as [L4 _].
    rewrite (wrap32_ok (_ + 1)), (wrap32_ok (_ + 2)), (wrap32_ok (_ + 3)) by lia.
    destruct s as [|a [|b1 [|c [|d [|? ?]]]]]; try discriminate.
    pose proof (zslice_idx _ _ _ _ 0 a E' eq_refl) as E0. pose proof (zslice_idx _ _ _ _ 1 b1 E' eq_refl) as E1.
    pose proof (zslice_idx _ _ _ _ 2 c E' eq_refl) as E2. pose proof (zslice_idx _ _ _ _ 3 d E' eq_refl) as E3.
    change (Z.of_nat 0) with 0 in E0. change (Z.of_nat 1) with 1 in E1. change (Z.of_nat 2) with 2 in E2. change (Z.of_nat 3) with 3 in E3.
    rewrite Z.add_0_r in E0. rewrite E0, E1, E2, E3. reflexivity.
  - right. split; [assumption|]. destruct (N.ltb_spec o (2 ^ 31)) as [S|S].
    + rewrite i32_ok by lia.
      destruct (zidx_any body (Z.of_N o)) as [->|[? ->]]; cbn [bind]; [reflexivity|].
      destruct (zidx_any body (wrap32 (Z.of_N o + 1))) as [->|[? ->]]; cbn [bind]; [reflexivity|].
      destruct (zidx_any body (wrap32 (Z.of_N o + 2))) as [->|[? ->]]; cbn [bind]; [reflexivity|].
      destruct (Z.ltb_spec (Z.of_N o + 3) (2 ^ 31)) as [T|T].
      * rewrite (wrap32_ok (_ + 3)) by lia. rewrite zidx_out by lia. reflexivity.
      * replace (Z.of_N o + 3) with (Z.of_N o + 3 - 2 ^ 32 + 1 * 2 ^ 32) by lia. rewrite wrap32_add, wrap32_ok by lia.
        unfold zidx. replace (_ <? 0) with true by lia. reflexivity.
    + rewrite i32_neg by lia. unfold zidx at 1. replace (_ <? 0) with true by lia. reflexivity.
Qed.
Lemma j_gw body nc : (N.of_nat (length body) + 4 <= 2 ^ 31)%N -> (nc < 2 ^ 31)%N -> forall bs n, (n < 2 ^ 32)%N ->
  exists o, java_leads body nc bs n o /\ match o with Some x => (x < 2 ^ 32)%N /\ gw (j_read_node body) (Z.of_N nc) bs (i32 n) = Ok (i32 x)
    | None => gw (j_read_node body) (Z.of_N nc) bs (i32 n) = Panic end.
Proof.
  intros LB Hnc. induction bs as [|b bs IH]; intros n Hn; cbn [gw].
  - exists (Some n). split; [apply jl_end|auto].
  - assert (is_leaf nc n /\ (Z.of_N nc <=? i32 n) = true \/ ~ is_leaf nc n /\ (Z.of_N nc <=? i32 n) = false) as [[Lf ->]|[Lf ->]].
    { unfold is_leaf. destruct (N.ltb_spec n (2 ^ 31)); [rewrite i32_ok by lia|rewrite i32_neg by lia]; lia. }
    + exists (Some n). split; [apply jl_leaf; assumption|auto].
    + destruct (j_read_any body n b LB) as [(m & Hm & ->)|[Hl ->]]; cbn [bind].
      * destruct (IH m (number4 _ _ _ Hm)) as (o & J & G). exists o. split; [apply jl_step with m; assumption|assumption].
      * exists None. split; [apply jl_crash; assumption|reflexivity].
Qed.
Lemma java_leads_unique body nc bs n o : java_leads body nc bs n o -> forall o', java_leads body nc bs n o' -> o = o'.
Proof.
  assert (Num : forall p l, number_at body (N.to_nat p) 4 l -> (p + 4 <= N.of_nat (length body))%N).
  { intros p l (a & s & b & -> & La & Ls & _). rewrite !app_length. lia. }
  induction 1 as [bs n L|n|b bs n m o L Hm _ IH|b bs n L Hc]; intros o' H.
  - inversion H; subst; try reflexivity; contradiction.
  - inversion H; subst; reflexivity.
  - inversion H; subst; [contradiction| |].
    + match goal with X : number_at _ _ _ ?v, _ : java_leads _ _ bs ?v o' |- _ => pose proof (number_unique _ _ _ _ _ Hm X); subst end. auto.
    + apply Num in Hm. lia.
  - inversion H; subst; [contradiction| |reflexivity].
    match goal with X : number_at _ _ _ _ |- _ => apply Num in X end. lia.
Qed.
(** Where links stay below 2^31 the walk is the one of the file format. *)
Lemma java_leads_leads body nc bs n k x : (8 * nc <= N.of_nat (length body))%N -> (nc < 2 ^ 29)%N -> leads body nc bs n k x -> (n < 2 ^ 31)%N -> (x < 2 ^ 31)%N -> java_leads body nc bs n (Some x).
Proof.
  intros L8 Hnc H. induction H as [bs n L|n|b bs n m k x L Hm H IH]; intros Hn Hx.
  - apply jl_leaf. unfold is_leaf. lia.
  - apply jl_end.
  - apply jl_step with m; [unfold is_leaf; lia| |].
    + unfold node_offset. rewrite N.mod_small by (destruct b; lia). replace (N.to_nat (8 * n + (if b then 4 else 0)%N)) with (8 * N.to_nat n + (if b then 4 else 0))%nat by (destruct b; lia). assumption.
    + apply IH; [|assumption]. inversion H; subst; (assumption || lia).
Qed.

(** C77: every query of every file that Java opens. *)
Theorem C77_java_answer : forall unmarshal lossy ips data q md body meta off,
  j_create unmarshal lossy ips data = Ok q -> file_is data md body -> (N.of_nat (length data) + 2 ^ 17 <= 2 ^ 31)%N -> unmarshal md = Some meta ->
  0 <= mNodeCount meta -> 8 * mNodeCount meta <= Z.of_nat (length body) ->
  assoc (str "CN") (mLanguages meta) = Some (Z.of_nat off) -> mFields meta <> [] ->
  let nc := Z.to_N (mNodeCount meta) in
  forall ip, file_takes meta ip ->
  exists l, java_leads body nc (abits (addr ip)) 0 l /\
    match l with
    | None => j_query lossy q ip = Panic
    | Some x => exists o, java_link body (N.of_nat (length data)) nc x o /\
      match o with
      | Text t => exists cols, columns (lossy t) cols /\ j_query lossy q ip = java_shown (mFields meta) (length (mLanguages meta)) off cols
      | Broken => j_query lossy q ip = Err ErrDatabaseError
      | _ => j_query lossy q ip = Panic
      end
    end.
Proof.
  intros u lossy ips data q md body meta off OC F Ls U P0 P8 HL Nf nc ip T.
  destruct (j_new u data) as [r| | |] eqn:O; try (unfold j_create in OC; rewrite O in OC; cbn [bind] in OC; discriminate).
  rewrite (C44_java_cache_transparent u lossy ips data q r OC O ip).
  destruct (j_opened _ _ _ _ _ _ O F ltac:(lia) U) as (E1 & E2 & E3 & E4 & E5).
  assert (mNodeCount meta = Z.of_N nc) as Enc by (unfold nc; lia).
  assert (length body <= length data)%nat as Lb by (destruct F as (h & -> & _); rewrite !app_length; lia).
  assert (8 * nc <= N.of_nat (length body))%N as L8 by lia.
  assert (valid_ip ip) as V by (destruct T as [[? _]|[? _]]; [left|right]; assumption).
  destruct (j_gw body nc ltac:(lia) ltac:(lia) (abits (addr ip)) 0%N ltac:(lia)) as (l & J & W). change (i32 0) with 0 in W.
  exists l. split; [assumption|].
  assert (j_find0 r ip = match l with None => Panic | Some x => Ok (if Z.of_N nc <=? i32 x then i32 x else 0) end) as E0.
  { unfold j_find0. rewrite E1, E2, E4, Enc.
    assert (find_node12 (j_read_node body) (Z.of_N nc) (jrV4 r) (jrCache r) ip =
      match l with None => Panic | Some x => if Z.of_N nc <=? i32 x then Ok (i32 x) else Err ErrDataNotExists end) as ->.
    { rewrite find_gw; [|intros L4|assumption].
      - destruct l as [x|]; [destruct W as [_ ->]|rewrite W]; reflexivity.
      - destruct T as [[_ H4]|[L _]]; [|lia]. rewrite H4 in E5. destruct E5 as (c & -> & C & Wv).
        exists c. rewrite Enc in C, Wv. rewrite j_v4walk_gw in Wv by lia. auto. }
    destruct T as [[L H4]|[L H6]]; rewrite L; cbn [Nat.eqb]; rewrite ?H4, ?H6; (destruct l as [x|]; [|reflexivity]); destruct (_ <=? _); reflexivity. }
  destruct l as [x|]; [|unfold j_query; cbn [fst snd]; unfold j_query0; rewrite E0; reflexivity].
  destruct W as [Lx _].
  assert (exists n, (is_leaf nc x /\ n = x \/ ~ is_leaf nc x /\ n = 0%N) /\ j_find0 r ip = Ok (Z.of_N n) /\ (n < 2 ^ 31)%N) as (n & Hn & E0' & Ln).
  { rewrite E0. unfold is_leaf. destruct (N.ltb_spec x (2 ^ 31)) as [S|S].
    - rewrite i32_ok by lia. destruct (Z.leb_spec (Z.of_N nc) (Z.of_N x)); [exists x; repeat split; [left; split; [lia|reflexivity]|assumption]|exists 0%N; repeat split; right; split; [lia|reflexivity]].
    - rewrite i32_neg by lia. replace (Z.of_N nc <=? Z.of_N x - 2 ^ 32) with false by lia. exists 0%N. repeat split. right. split; [lia|reflexivity]. }
  destruct (j_resolve_at lossy r nc (n + 7 * nc) (Z.of_N n) off) as (o & A & R);
    [rewrite E4; assumption|rewrite E2; assumption|lia|lia|rewrite E2, E3; lia|rewrite E3; lia|rewrite E1; assumption|rewrite E1; assumption|].
  rewrite E2, E3 in A. replace (Z.to_N (Z.of_nat (length data))) with (N.of_nat (length data)) in A by lia.
  exists o. split; [exists n; auto|]. unfold j_query. cbn [fst snd]. unfold j_query0. rewrite E0'. cbn [bind].
  destruct o as [| | |t]; try (rewrite R; reflexivity).
  exists (split x09 (lossy t)). split; [split; [apply split_nonnil|split; [apply split_no_byte|apply join_split]]|].
  rewrite R, E1. cbv zeta. unfold java_shown. destruct (_ <? off)%nat; cbn [orb bind]; [reflexivity|].
  rewrite j_build_shown by (rewrite firstn_length; lia). destruct (existsb _ _); reflexivity.
Qed.
(** C77: Java's walk is determined, and the one of the file format where that leads to a link below 2^31. *)
Theorem C77_java_walk : forall body nc a l, (8 * nc <= N.of_nat (length body))%N -> (N.of_nat (length body) < 2 ^ 31)%N ->
  java_leads body nc (abits a) 0 l ->
  (forall l', java_leads body nc (abits a) 0 l' -> l' = l) /\ (forall k x, leads body nc (abits a) 0 k x -> (x < 2 ^ 31)%N -> l = Some x).
Proof.
  intros body nc a l L8 LB J. split.
  - intros l' J'. symmetry. exact (java_leads_unique _ _ _ _ _ J _ J').
  - intros k x Ld Lx. apply (java_leads_unique _ _ _ _ _ J). apply (java_leads_leads body nc _ 0%N k x); (assumption || lia).
Qed.

Lemma j_total_or body : total_or (j_read_node body).
Proof.
  intros z b. unfold j_read_node.
  repeat match goal with |- context [zidx ?l ?i] => destruct (zidx_any l i) as [->|[? ->]]; cbn [bind]; [left; reflexivity|] end. right. eauto.
Qed.
(** C77: the same in Java: opening crashes exactly when the walk of an IPv4 address leaves the body in its first 108 steps. *)
Theorem C77_java_opens : forall unmarshal lossy ips data md body meta,
  file_is data md body -> (5 <= length data)%nat -> (N.of_nat (length data) + 4 <= 2 ^ 31)%N -> unmarshal md = Some meta ->
  0 <= mNodeCount meta -> 8 * mNodeCount meta <= Z.of_nat (length body) -> mTotalSize meta = Z.of_nat (length body) ->
  let walked := ipv4_walks (fun bs => exists x, java_leads body (Z.to_N (mNodeCount meta)) bs 0 (Some x)) meta in
  (exists q, j_create unmarshal lossy ips data = Ok q) /\ walked \/ j_create unmarshal lossy ips data = Panic /\ ~ walked.
Proof.
  intros u lossy ips data md body meta (h & Ed & Lh & Vh) L5 Ls U P0 P8 HT walked.
  assert (length data = 4 + length md + length body)%nat as Ll by (rewrite Ed, !app_length; lia).
  assert (j_new u data = if HasIPv4 meta then
      let* v4 := j_v4walk (j_read_node body) (mNodeCount meta) 96 0 0 in
      let* c := initCache12 (j_read_node body) (mNodeCount meta) v4 in
      Ok (mkJReader meta (Z.of_nat (length data)) (mNodeCount meta) body v4 (Some c))
    else Ok (mkJReader meta (Z.of_nat (length data)) (mNodeCount meta) body 0 None)) as EN.
  { unfold j_new. replace (_ <? 5) with false by lia.
    assert (slice data 0 4 = Ok h) as -> by (rewrite Ed; apply (slice_app [] h (md ++ body)); [reflexivity|rewrite Lh; reflexivity]). cbn [bind].
    rewrite Vh. rewrite i32_ok by lia. rewrite (wrap32_ok (_ + 4)) by lia.
    assert (zslice data 4 (Z.of_N (N.of_nat (length md)) + 4) = Ok md) as E2.
    { unfold zslice. replace (4 <? 0) with false by lia. replace (_ + 4 <? 0) with false by lia. rewrite Ed. apply slice_app; [rewrite Lh; reflexivity|lia]. }
    rewrite (copyOfRange_zslice _ _ _ _ E2). rewrite U. cbn [bind].
    rewrite wrap32_ok by lia. replace (negb _) with false by (symmetry; apply negb_false_iff, Z.eqb_eq; lia).
    assert (zslice data (Z.of_N (N.of_nat (length md)) + 4) (Z.of_nat (length data)) = Ok body) as E3.
    { unfold zslice. replace (_ <? 0) with false by lia. replace (Z.of_nat _ <? 0) with false by lia.
      rewrite Ed. rewrite <- (app_nil_r body) at 1. rewrite app_assoc. apply slice_app; rewrite !app_length; lia. }
    rewrite (copyOfRange_zslice _ _ _ _ E3). cbn [bind]. reflexivity. }
  unfold j_create. rewrite EN. clear EN. unfold walked, ipv4_walks. destruct (HasIPv4 meta) eqn:H4; [|left; split; [cbn [bind]; eauto|discriminate]].
  set (nc := Z.to_N (mNodeCount meta)) in *. replace (mNodeCount meta) with (Z.of_N nc) in * by (unfold nc; lia).
  assert (N.of_nat (length body) + 4 <= 2 ^ 31)%N as LB by lia.
  rewrite j_v4walk_gw by lia. rewrite v4_full.
  assert (Q : forall ip, length ip = 4%nat -> (exists x, gw (j_read_node body) (Z.of_N nc) (firstn 108 (v4bits ++ bits ip)) 0 = Ok x) <->
    exists x, java_leads body nc (firstn 108 (abits (addr ip))) 0 (Some x)).
  { intros ip L. rewrite <- abits4 by assumption. set (bs := firstn 108 (abits (addr ip))) in *.
    destruct (j_gw body nc LB ltac:(lia) bs 0%N ltac:(lia)) as (l & J & W). change (i32 0) with 0 in W. split.
    - intros [y Y]. destruct l as [x|]; [eauto|congruence].
    - intros [x X]. pose proof (java_leads_unique _ _ _ _ _ J _ X) as ->. destruct W as [_ W]. eauto. }
  destruct (opens_gw _ (Z.of_N nc) (j_total_or body)) as [[(v4 & c & E & C) G]|[B G]].
  - left. rewrite E. cbn [bind]. rewrite C. cbn [bind]. split; [eauto|]. intros _ ip L. apply Q; auto.
  - right. split.
    + destruct B as [->|(v4 & -> & C)]; cbn [bind]; [reflexivity|]. rewrite C. reflexivity.
    + intros X. apply G. intros ip L. apply Q; auto.
Qed.

(** C77: the file says only one thing about a link. *)
Theorem C77_unique : forall body size nc k x o o', (8 * nc <= N.of_nat (length body))%N -> (N.of_nat (length body) <= size < 2 ^ 31)%N ->
  (at_offset body size x o -> at_offset body size x o' -> o = o') /\
  (rust_link body size nc k x o -> rust_link body size nc k x o' -> o = o').
Proof.
  intros body size nc k x o o' H8 Hsz.
  assert (U : forall p o o', at_offset body size p o -> at_offset body size p o' -> o = o').
  { clear - Hsz. intros p o o'.
    assert (Rec : forall r, (exists a s b, body = a ++ s ++ r ++ b /\ length a = N.to_nat p /\ length s = 2%nat /\ val s = N.of_nat (length r)) ->
       number_at body (N.to_nat p) 2 (N.of_nat (length r)) /\ (p + 2 + N.of_nat (length r) <= N.of_nat (length body))%N /\
       r = firstn (length r) (skipn (N.to_nat p + 2) body)).
    { intros r (a & s & b & -> & La & Ls & V). split; [exists a, s, (r ++ b); auto|]. rewrite !app_length. split; [lia|].
      rewrite app_assoc, skipn_app, (skipn_all2 (a ++ s)) by (rewrite app_length; lia). rewrite app_length. replace (_ - (length a + length s))%nat with 0%nat by lia.
      cbn [skipn app]. rewrite firstn_app, firstn_all. rewrite Nat.sub_diag, firstn_O, app_nil_r. reflexivity. }
    assert (Num : forall l, number_at body (N.to_nat p) 2 l -> (p + 2 <= N.of_nat (length body))%N).
    { intros l (a & s & b & -> & La & Ls & _). rewrite !app_length. lia. }
    intros H H'. destruct H as [r R|S1|l L1 L2|S1 S2|S1]; destruct H' as [r' R'|S1'|l' L1' L2'|S1' S2'|S1'];
      try reflexivity; try lia;
      repeat match goal with
      | X : exists a s b, _ = a ++ s ++ _ ++ b /\ _ |- _ => apply Rec in X as (? & ? & ?)
      | X : number_at _ _ _ _ |- _ => let Y := fresh in pose proof (Num _ X) as Y; revert X
      end; intros; try lia.
    all: repeat match goal with X : number_at _ _ _ ?u, Y : number_at _ _ _ ?v |- _ => pose proof (number_unique _ _ _ _ _ X Y); clear Y end; try lia.
    f_equal. assert (length r = length r') as El by lia. congruence. }
  split; [apply U|]. intros H H'. destruct H as [o A B|A|A B]; destruct H' as [o' A' B'|A'|A' B']; try reflexivity; try (exfalso; lia).
  exact (U _ _ _ B B').
Qed.

(* ---------- a concrete file ---------- *)
(** One node; its left link is the record right behind it, its right link is 2^31. *)
Definition odd_meta : MetaData := mkMeta 0 2 [(str "CN", 0)] 1 13 [str "country_name"; str "city_name"] [] [].
Definition odd_file : bytes :=
  [x00; x00; x00; x01] ++ [x7b] ++ [x00; x00; x00; x01; x80; x00; x00; x00] ++ [x00; x03; x41; x09; x42].
Definition odd_body : bytes := [x00; x00; x00; x01; x80; x00; x00; x00] ++ [x00; x03; x41; x09; x42].
Definition odd_json (s : bytes) : option MetaData := Some odd_meta.
Example C77_case_file : file_is odd_file [x7b] odd_body.
Proof. exists [x00; x00; x00; x01]. repeat split. Qed.
Example C77_case_links : (exists k, leads odd_body 1 (abits 1) 0 k 1) /\ at_offset odd_body 18 8 (Text [x41; x09; x42]) /\
  (exists k, leads odd_body 1 (abits (2 ^ 127)) 0 k (2 ^ 31) /\ (k < 128)%nat).
Proof.
  split; [|split].
  - exists 1%nat. change (abits 1) with (false :: tl (abits 1)). apply leads_step with 1%N; [reflexivity| |apply leads_leaf; lia].
    exists [], [x00; x00; x00; x01], (skipn 4 odd_body). repeat split.
  - apply at_text. exists (firstn 8 odd_body), [x00; x03], []. repeat split.
  - exists 1%nat. split; [|lia]. change (abits (2 ^ 127)) with (true :: tl (abits (2 ^ 127))). apply leads_step with (2 ^ 31)%N; [reflexivity| |apply leads_leaf; lia].
    exists (firstn 4 odd_body), [x80; x00; x00; x00], (skipn 8 odd_body). repeat split.
Qed.
Example C77_case_java : java_leads odd_body 1 (abits (2 ^ 127)) 0 (Some 1%N).
Proof.
  change (abits (2 ^ 127)) with (true :: false :: tl (tl (abits (2 ^ 127)))). apply jl_step with (2 ^ 31)%N; [unfold is_leaf; lia| |].
  - exists (firstn 4 odd_body), [x80; x00; x00; x00], (skipn 8 odd_body). repeat split.
  - apply jl_step with 1%N; [unfold is_leaf; lia| |apply jl_leaf; unfold is_leaf; lia].
    exists [], [x00; x00; x00; x01], (skipn 4 odd_body). repeat split.
Qed.
(** Rust and Java read the record, Rust crashes on the other half, where Java
    reads the link as node 0 again and goes on. *)
Example C77_wrapped_case :
  match rs_new odd_json odd_file, j_create odd_json (fun s => s) [] odd_file with
  | Ok r, Ok q =>
      rs_query (fun s => s) r (be_enc 16 1) = rust_shown [str "country_name"; str "city_name"] [str "A"; str "B"] /\
      j_query (fun s => s) q (be_enc 16 1) = java_shown [str "country_name"; str "city_name"] 1 0 [str "A"; str "B"] /\
      rs_query (fun s => s) r (be_enc 16 (2 ^ 127)) = Panic /\
      j_query (fun s => s) q (be_enc 16 (2 ^ 127)) = j_query (fun s => s) q (be_enc 16 1)
  | _, _ => False
  end.
Proof. vm_compute. repeat split. Qed.
Example C77_case_takes : file_takes odd_meta (be_enc 16 1).
Proof. right. split; reflexivity. Qed.

(** With IPv4: the same file opens, as all IPv4 addresses begin with a 0 bit; with the links exchanged it does not open in Rust. *)
Definition odd_meta4 : MetaData := mkMeta 0 3 [(str "CN", 0)] 1 13 [str "country_name"; str "city_name"] [] [].
Definition odd_json4 (s : bytes) : option MetaData := Some odd_meta4.
Definition crash_body : bytes := [x80; x00; x00; x00; x00; x00; x00; x01] ++ [x00; x03; x41; x09; x42].
Definition crash_file : bytes := [x00; x00; x00; x01] ++ [x7b] ++ crash_body.
Example C77_case_opens : (exists r, rs_new odd_json4 odd_file = Ok r) /\ (exists q, j_create odd_json4 (fun s => s) [] odd_file = Ok q) /\
  rs_new odd_json4 crash_file = Panic.
Proof.
  assert (A : forall ip, length ip = 4%nat -> exists bs, firstn 108 (abits (addr ip)) = false :: bs).
  { intros ip L. rewrite abits4 by assumption. eexists. reflexivity. }
  split; [|split].
  - destruct (C77_rust_opens odd_json4 odd_file [x7b] odd_body odd_meta4 C77_case_file) as [[X _]|[_ X]]; try reflexivity; try (cbn; lia); [exact X|].
    exfalso. apply X. intros _ ip L. destruct (A ip L) as [bs ->]. exists 1%nat, 1%N. split; [|left; reflexivity].
    apply leads_step with 1%N; [reflexivity| |apply leads_leaf; cbn; lia]. exists [], [x00; x00; x00; x01], (skipn 4 odd_body). repeat split.
  - destruct (C77_java_opens odd_json4 (fun s => s) [] odd_file [x7b] odd_body odd_meta4 C77_case_file) as [[X _]|[_ X]]; try reflexivity; try (cbn; lia); [exact X|].
    exfalso. apply X. intros _ ip L. destruct (A ip L) as [bs ->]. exists 1%N.
    apply jl_step with 1%N; [unfold is_leaf; cbn; lia| |apply jl_leaf; unfold is_leaf; cbn; lia]. exists [], [x00; x00; x00; x01], (skipn 4 odd_body). repeat split.
  - vm_compute. reflexivity.
Qed.

Print Assumptions C77_rust_answer.
Print Assumptions C77_rust_opens.
Print Assumptions C77_java_answer.
Print Assumptions C77_java_walk.
Print Assumptions C77_java_opens.
Print Assumptions C77_unique.

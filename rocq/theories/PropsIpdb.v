(** Property theorems C11-C18 (ipdb).  Vocabulary: Spec.v, SpecIpdb.v. *)
From Verif Require Import Base NetIP IpNet Spec IpNetProofs SplitProofs IpNetProofs2 Ipdb SpecIpdb Bits.
From Verif Require Import TrieProofs WriterProofs ReaderProofs OpenProofs PackProofs.
Open Scope Z_scope.

(** The JSON library reads back the metadata that the packer writes for this
    dataset (PropsJson.v: true of encoding/json when the names are UTF-8 text). *)
Definition json_ok (marshal : MetaData -> bytes) (unmarshal : bytes -> option MetaData) (now : Z) (ipd : IpData) : Prop :=
  forall nodes size, 0 <= nodes < 2 ^ 63 -> 0 <= size < 2 ^ 63 ->
    unmarshal (marshal (meta_of now ipd nodes size)) = Some (meta_of now ipd nodes size).

(* ------------------------------------------------------------------ *)
(** C12: after any sequence of rows the packed and reopened database answers like
    the prefix-free map [store_all]. *)
Theorem C12_pack_query : forall marshal unmarshal now ipd bs,
  Forall2 row_ok (dIps ipd) bs -> plain_columns (dFields ipd) -> dFields ipd <> [] -> json_ok marshal unmarshal now ipd ->
  exists data, pack marshal now ipd = Ok data /\
    (Z.of_nat (length data) < 2 ^ 32 ->
     exists q, newQuerier unmarshal data = Ok (q, []) /\
       forall ip, valid_ip ip -> Query q [] ip =
         answer (dFields ipd) (vIpType (dVersion ipd)) (store_all (combine bs (map fvals (dIps ipd)))) (addr ip)).
Proof.
  intros marshal unmarshal now ipd bs HR HC HF HJ.
  destruct (pack_query marshal unmarshal now ipd bs HR HC HF HJ) as [data [E H]]. exists data. split; [assumption|].
  intros Hs. destruct (H Hs) as [r [w [P [O [_ [_ [_ [_ [_ [_ [_ [_ [_ [_ Q]]]]]]]]]]]]]]. exists r. unfold newQuerier. rewrite O. auto.
Qed.
Print Assumptions C12_pack_query.

(** C12: the three rules, on lookups. *)
Theorem C12_nested_dropped : forall (m : list (block * list bytes)) b v,
  (exists e, In e m /\ (strictly_inside b (fst e) = true \/ strictly_inside (fst e) b = true)) -> store m b v = m.
Proof.
  intros m b v [e [I H]]. apply store_keep. destruct H; [left|right]; exists e; auto.
Qed.
Print Assumptions C12_nested_dropped.

Theorem C12_replaces_and_keeps_others : forall (m : list (block * list bytes)) b v,
  (forall e, In e m -> strictly_inside b (fst e) = false /\ strictly_inside (fst e) b = false) ->
  (forall a, in_block b a -> lookup (store m b v) a = Some (b, v)) /\
  (forall a, ~ in_block b a -> lookup (store m b v) a = lookup m a).
Proof.
  intros m b v H. rewrite store_new.
  2:{ intros [e [I E]]. destruct (H e I). congruence. }
  2:{ intros [e [I E]]. destruct (H e I). congruence. }
  split; intros a Ha; unfold lookup; cbn [find fst].
  - apply in_blockb_iff in Ha. rewrite Ha. reflexivity.
  - destruct (in_blockb b a) eqn:E; [apply in_blockb_iff in E; contradiction|].
    clear H. induction m as [|[c u] m IH]; [reflexivity|]. cbn [filter fst find].
    destruct (block_eqb_spec c b) as [->|N]; cbn [negb find fst]; [rewrite E; exact IH|].
    destruct (in_blockb c a); [reflexivity|exact IH].
Qed.
Print Assumptions C12_replaces_and_keeps_others.

(** C12: an insert that reports an error leaves the writer as it was, and it
    reports one exactly for nested or enclosing rows. *)
Theorem C12_insert_rejected : forall now ipd bs w row b,
  Forall2 net_ok (dIps ipd) bs -> plain_columns (dFields ipd) ->
  insert_all (pack_writer now ipd) (dIps ipd) = Ok w -> net_ok row b ->
  exists w' err, insert w (cidr row) (fvals row) = Ok (w', err) /\ (err <> None -> w' = w) /\
    (err <> None <-> exists e, In e (store_all (combine bs (map fvals (dIps ipd)))) /\
                       (strictly_inside b (fst e) = true \/ strictly_inside (fst e) b = true)).
Proof.
  intros now ipd bs w row b HR HC E [N1 N2 N3].
  destruct (pack_winv now ipd bs HR HC) as [w0 [P [E0 [W [M S]]]]]. rewrite E in E0. injection E0 as <-.
  assert (wCont w = None) as Hc.
  { assert (wCont (pack_writer now ipd) = None) as Hc.
    { cbn. apply last_continent_none; [reflexivity|]. intros f I. change (covertFields (dFields ipd)) with (map covert1 (dFields ipd)) in I.
      apply in_map_iff in I as [g [<- I]]. apply covert1_lower. apply HC. assumption. }
    revert E Hc. clear. generalize (pack_writer now ipd) as w0. induction (dIps ipd) as [|r rs IH]; intros w0; cbn [insert_all].
    - intros Q. injection Q as <-. auto.
    - unfold insert at 1. destruct (mask_size _) as [mask sz].
      destruct (Nodes _ _ _) as [[[[n1 n2] n3] ok]| | |]; cbn [bind]; try discriminate. destruct ok; cbn [negb bind].
      + destruct (nget _ _ _) as [e| | |]; cbn [bind]; try discriminate. destruct (0 <? e); cbn [bind].
        * intros Q Hc. eapply IH; [exact Q|]. assumption.
        * cbn [wCont]. destruct (conv_values _ _); cbn [bind]; try discriminate.
          destruct (Fields _ _ _) as [[h c] o]. destruct (nset _ _ _ _); cbn [bind]; try discriminate.
          intros Q Hc. eapply IH; [exact Q|]. assumption.
      + intros Q Hc. eapply IH; [exact Q|]. assumption. }
  destruct (insert_spec w P _ (cidr row) b (fvals row) (fvals row) W N1 N2 N3) as [w1 [err [P1 [E1 [W1 [M1 [C1 [H1 H2]]]]]]]].
  { rewrite Hc. reflexivity. }
  exists w1, err. split; [assumption|]. split; [assumption|].
  assert (forall b s, In (b, s) (mapv (join x09) (store_all (rows_of (dIps ipd) bs))) <->
            exists v, s = join x09 v /\ In (b, v) (store_all (rows_of (dIps ipd) bs))) as IM.
  { intros b' s. unfold mapv. rewrite in_map_iff. split.
    - intros [[b2 v] [Q I]]. injection Q as <- <-. eauto.
    - intros [v [-> I]]. exists (b', v). auto. }
  split.
  - intros N. destruct H1 as [[_ [[b' s] [I X]]]|[[_ [[b' s] [I X]]]|[-> _]]]; [| |congruence];
    apply IM in I as [v [_ I]]; exists (b', v); auto.
  - intros [[b' v] [I X]] ->. destruct H1 as [[Q _]|[[Q _]|[_ [A B]]]]; [discriminate..|].
    destruct X as [X|X]; [apply A|apply B]; exists (b', join x09 v); (split; [apply IM; eauto|assumption]).
Qed.
Print Assumptions C12_insert_rejected.

(* ------------------------------------------------------------------ *)
(** C11 *)
Definition disjoint (bs : list block) : Prop :=
  forall i j b c, i <> j -> nth_error bs i = Some b -> nth_error bs j = Some c -> forall a, ~ (in_block b a /\ in_block c a).

Lemma in_block_base b : in_block b (base b).
Proof. unfold in_block. pose proof (pow_pos (logsz b)). lia. Qed.

Lemma store_all_disjoint (l : list (block * list bytes)) : disjoint (map fst l) -> forall e, In e (store_all l) <-> In e l.
Proof.
  intros D. split; [apply store_all_in|].
  unfold store_all.
  enough (forall l m, disjoint (map fst m ++ map fst l) -> forall e, In e m \/ In e l ->
    In e (fold_left (fun m e => store m (fst e) (snd e)) l m)) as H by (intros I; apply H; [exact D|right; assumption]).
  clear. induction l as [|[b v] l IH]; intros m D e I; cbn [fold_left fst snd]; [destruct I as [I|[]]; assumption|].
  assert (forall e', In e' m -> forall a, in_block (fst e') a -> in_block b a -> False) as Hd.
  { intros e' I' a A B. apply In_nth_error in I' as [i Hi].
    assert (i < length m)%nat as Li by (apply nth_error_Some; congruence).
    apply (D i (length (map fst m)) (fst e') b) with (a := a); [rewrite map_length; lia| | |auto].
    - rewrite nth_error_app1 by (rewrite map_length; assumption). rewrite nth_error_map, Hi. reflexivity.
    - rewrite nth_error_app2, Nat.sub_diag by lia. reflexivity. }
  rewrite store_new.
  2:{ intros [e' [I' E]]. unfold strictly_inside in E. apply andb_true_iff in E as [_ E]. apply in_blockb_iff in E.
      exact (Hd e' I' _ E (in_block_base b)). }
  2:{ intros [e' [I' E]]. unfold strictly_inside in E. apply andb_true_iff in E as [_ E]. apply in_blockb_iff in E.
      exact (Hd e' I' _ (in_block_base _) E). }
  assert (filter (fun e0 => negb (block_eqb (fst e0) b)) m = m) as ->.
  { assert (forall e', In e' m -> block_eqb (fst e') b = false) as Hn.
    { intros e' I'. destruct (block_eqb_spec (fst e') b) as [E|]; [exfalso|reflexivity].
      apply (Hd e' I' (base b)); [rewrite E|]; apply in_block_base. }
    clear - Hn. induction m as [|e' m IH]; [reflexivity|]. cbn [filter]. rewrite Hn by (left; reflexivity). cbn [negb].
    f_equal. apply IH. intros; apply Hn; right; assumption. }
  apply IH.
  - assert (forall i x, nth_error (map fst ((b, v) :: m) ++ map fst l) i = Some x ->
      exists j, nth_error (map fst m ++ map fst ((b, v) :: l)) j = Some x /\
        j = (if (i =? 0)%nat then length m else if (i <=? length m)%nat then i - 1 else i)%nat) as Mv.
    { intros i x Hi. eexists. split; [|reflexivity]. cbn [map fst app] in Hi. destruct i as [|i]; cbn [Nat.eqb].
      - cbn in Hi. rewrite nth_error_app2, map_length, Nat.sub_diag by (rewrite map_length; lia). exact Hi.
      - cbn [nth_error] in Hi. destruct (Nat.leb_spec (S i) (length m)) as [L|L].
        + rewrite nth_error_app1 in Hi by (rewrite map_length; lia).
          rewrite nth_error_app1 by (rewrite map_length; lia). rewrite <- Hi. f_equal. lia.
        + rewrite nth_error_app2 in Hi by (rewrite map_length; lia). rewrite map_length in Hi.
          rewrite nth_error_app2 by (rewrite map_length; lia). rewrite map_length.
          replace (S i - length m)%nat with (S (i - length m)) by lia. exact Hi. }
    intros i j bi bj Hij Hi Hj. destruct (Mv _ _ Hi) as [i' [Hi' Ei]]. destruct (Mv _ _ Hj) as [j' [Hj' Ej]].
    apply (D i' j' bi bj); [|assumption..]. subst i' j'.
    destruct (Nat.eqb_spec i 0), (Nat.eqb_spec j 0), (Nat.leb_spec i (length m)), (Nat.leb_spec j (length m)); lia.
  - destruct I as [I|[<-|I]]; [left; right; assumption|left; left; reflexivity|right; assumption].
Qed.

Theorem C11_pack_query_disjoint : forall marshal unmarshal now ipd bs,
  Forall2 row_ok (dIps ipd) bs -> disjoint bs -> plain_columns (dFields ipd) -> dFields ipd <> [] ->
  json_ok marshal unmarshal now ipd ->
  exists data, pack marshal now ipd = Ok data /\
    (Z.of_nat (length data) < 2 ^ 32 ->
     exists q, newQuerier unmarshal data = Ok (q, []) /\
       forall i row b ip, nth_error (dIps ipd) i = Some row -> nth_error bs i = Some b ->
         (length (dFields ipd) <= length (fvals row))%nat ->
         valid_ip ip -> in_block b (addr ip) -> holds_family (vIpType (dVersion ipd)) (addr ip) = true ->
         Query q [] ip = Ok (row_info (dFields ipd) (fvals row), prefix_len (addr ip) b)).
Proof.
  intros marshal unmarshal now ipd bs HR HD HC HF HJ.
  destruct (C12_pack_query marshal unmarshal now ipd bs HR HC HF HJ) as [data [E H]]. exists data. split; [assumption|].
  intros Hs. destruct (H Hs) as [q [O Q]]. exists q. split; [assumption|].
  intros i row b ip Hi Hb Hl V B F. rewrite Q by assumption. unfold answer. rewrite F.
  assert (length (dIps ipd) = length bs) as Lb by exact (Forall2_length HR).
  assert (map fst (combine bs (map fvals (dIps ipd))) = bs) as Ef.
  { assert (length bs = length (map fvals (dIps ipd))) as L2 by (rewrite map_length; lia).
    revert L2. clear. generalize (map fvals (dIps ipd)). induction bs as [|x bs IH]; intros [|y l] L; try discriminate; [reflexivity|].
    cbn. f_equal. apply IH. cbn in L. lia. }
  assert (nth_error (combine bs (map fvals (dIps ipd))) i = Some (b, fvals row)) as Hc.
  { assert (nth_error (map fvals (dIps ipd)) i = Some (fvals row)) as Hm by (rewrite nth_error_map, Hi; reflexivity).
    revert Hb Hm. clear. generalize (map fvals (dIps ipd)). revert i. induction bs as [|x bs IH]; intros [|i] [|y l]; cbn; try discriminate.
    - intros A B. congruence.
    - intros A B. apply IH; assumption. }
  set (l := combine bs (map fvals (dIps ipd))) in *.
  assert (disjoint (map fst l)) as HD2 by (replace (map fst l) with bs by (symmetry; exact Ef); assumption).
  assert (In (b, fvals row) (store_all l)) as I by (apply store_all_disjoint; [assumption|eapply nth_error_In; eassumption]).
  destruct (lookup (store_all l) (addr ip)) as [[b' row']|] eqn:L.
  - unfold lookup in L. apply find_some in L as [I' B']. cbn [fst] in B'. apply in_blockb_iff in B'.
    apply store_all_in in I'. apply In_nth_error in I' as [j Hj].
    assert (j = i) as ->.
    { destruct (Nat.eq_dec j i) as [|N]; [assumption|exfalso].
      apply (HD j i b' b N) with (a := addr ip); [|assumption|auto].
      change (nth_error bs j = Some (fst (b', row'))). rewrite <- Ef. exact (map_nth_error fst _ _ Hj). }
    rewrite Hc in Hj. injection Hj as <- <-. replace (length (fvals row) <? length (dFields ipd))%nat with false by lia. reflexivity.
  - exfalso. unfold lookup in L. pose proof (find_none _ _ L _ I) as X. cbn [fst] in X. apply in_blockb_iff in B. congruence.
Qed.
Print Assumptions C11_pack_query_disjoint.

(** Non-vacuity of C11/C12: a mixed dataset with two disjoint rows. *)
Definition case_ipd : IpData := mkData [str "country"; str "continent"; str "asn"] (mkVersion 3 0 0 (str "v1") [] [])
  [ mkRaw (mkNet [x01; x00; x00; x00] [xff; xff; xff; x00]) [str "CN"; str "AS"; str "4134"];
    mkRaw (mkNet (x20 :: x01 :: repeat x00 14) (repeat xff 4 ++ repeat x00 12)) [str "US"; str "NA"; str ""] ].
Definition case_blocks : list block :=
  [ mkBlock (v4base + 0x01000000) 8; mkBlock (0x2001 * 2 ^ 112) 96 ].
Ltac row_ok_solve :=
  constructor;
  [ constructor;
    [ constructor; [first [left; reflexivity|right; reflexivity]|reflexivity|vm_compute; discriminate|vm_compute; reflexivity|vm_compute; reflexivity]
    | vm_compute; reflexivity | vm_compute; reflexivity ]
  | discriminate
  | repeat (constructor; [intros Hin; vm_compute in Hin; repeat destruct Hin as [Hin|Hin]; try discriminate; try destruct Hin|]); constructor
  | vm_compute; reflexivity ].
Example C11_case : Forall2 row_ok (dIps case_ipd) case_blocks /\ disjoint case_blocks /\ plain_columns (dFields case_ipd) /\
  dFields case_ipd <> [] /\
  row_info (dFields case_ipd) [str "CN"; str "AS"; str "4134"] =
    mkInfo (str "CN") [] [] [] (str "4134") [] (str "亚洲") [].
Proof.
  split; [|split; [|split; [|split]]].
  - constructor; [row_ok_solve|]. constructor; [row_ok_solve|]. constructor.
  - intros i j b c N Hi Hj a [A B].
    destruct i as [|[|i]]; destruct j as [|[|j]]; cbn in Hi, Hj; try congruence; try (destruct i; discriminate); try (destruct j; discriminate);
    injection Hi as <-; injection Hj as <-; unfold in_block in *; cbn [base logsz] in *;
    change (v4base + 16777216)%N with 281470698520576%N in *; change (2 ^ 8)%N with 256%N in *;
    change (0x2001 * 2 ^ 112)%N with 42540488161975842760550356425300246528%N in *;
    change (2 ^ 96)%N with 79228162514264337593543950336%N in *; flia.
  - intros f [<-|[<-|[<-|[]]]] N H; try (apply N; reflexivity); vm_compute in H; discriminate.
  - discriminate.
  - vm_compute. reflexivity.
Qed.

(* ------------------------------------------------------------------ *)
(** C13 *)
Theorem C13_no_record : forall marshal unmarshal now ipd bs,
  Forall2 row_ok (dIps ipd) bs -> plain_columns (dFields ipd) -> dFields ipd <> [] -> json_ok marshal unmarshal now ipd ->
  exists data, pack marshal now ipd = Ok data /\
    (Z.of_nat (length data) < 2 ^ 32 ->
     exists q, newQuerier unmarshal data = Ok (q, []) /\
       forall ip,
         (~ valid_ip ip \/
          valid_ip ip /\ holds_family (vIpType (dVersion ipd)) (addr ip) = false \/
          valid_ip ip /\ forall b, In b bs -> ~ in_block b (addr ip)) ->
         ((2 <= length (dFields ipd))%nat -> Query q [] ip = Err ErrDatabaseError) /\
         (length (dFields ipd) = 1%nat -> Query q [] ip = Ok (emptyInfo, 0%nat))).
Proof.
  intros marshal unmarshal now ipd bs HR HC HF HJ.
  destruct (pack_query marshal unmarshal now ipd bs HR HC HF HJ) as [data [E H]]. exists data. split; [assumption|].
  intros Hs. destruct (H Hs) as [r [w [P [O [RI [_ [_ [_ [_ [Mm [_ [_ [_ [Rc Q]]]]]]]]]]]]]].
  exists r. unfold newQuerier. rewrite O. split; [reflexivity|].
  intros ip Hip.
  enough (Query r [] ip = no_record (dFields ipd)) as ->.
  { unfold no_record. split; intros L.
    - replace (length (dFields ipd) =? 1)%nat with false by lia. reflexivity.
    - rewrite L. reflexivity. }
  destruct Hip as [NV|[[V F]|[V N]]].
  - unfold Query. rewrite QueryInternal_cache by (try assumption; intros ? ? X; discriminate). rewrite QueryInternal_false.
    assert (find0 r ip = Err ErrIPFormat) as ->.
    { unfold valid_ip in NV. unfold find0, to4, to16.
      destruct (Nat.eqb_spec (length ip) 4); [tauto|]. destruct (Nat.eqb_spec (length ip) 16); [tauto|]. reflexivity. }
    cbn [bind].
    rewrite <- (query_nobody r (dFields ipd)); [|rewrite Mm; reflexivity|rewrite Mm; reflexivity|assumption|assumption].
    destruct (info_of r []); reflexivity.
  - rewrite Q by assumption. unfold answer. rewrite F. reflexivity.
  - rewrite Q by assumption. unfold answer. destruct (holds_family _ _); [|reflexivity].
    destruct (lookup _ _) as [[b row]|] eqn:L; [exfalso|reflexivity].
    unfold lookup in L. apply find_some in L as [I B]. cbn [fst] in B. apply in_blockb_iff in B.
    apply store_all_in in I. apply (N b); [|assumption].
    revert I. clear. unfold rows_of. generalize (map fvals (dIps ipd)). induction bs as [|x bs IH]; intros [|y l]; cbn; try tauto.
    intros [X|X]; [injection X as -> _; auto|right; eapply IH; eassumption].
Qed.
Print Assumptions C13_no_record.

(* ------------------------------------------------------------------ *)
(** C14: the same reader with its prefix cache removed. *)
Definition no_cache (r : Reader) : Reader :=
  mkReader (rFileSize r) (rNodeCount r) (rV4offset r) (rMeta r) (rData r) (rCont r) None.
Theorem C14_prefix_cache : forall unmarshal data r, newReaderFromBytes unmarshal data = Ok r ->
  (forall ip, length ip = 4%nat -> search r ip 32 = search (no_cache r) ip 32) /\
  (forall ip, find0 r ip = find0 (no_cache r) ip).
Proof.
  intros unmarshal data r O. pose proof (open_rinv _ _ _ O) as RI.
  assert (forall ip bc, length (bits ip) = bc -> (bc = 32 \/ bc = 128)%nat -> search r ip bc = search (no_cache r) ip bc) as S.
  { intros ip bc L Hbc. rewrite search_walk by assumption. unfold search, no_cache. cbn [rV4offset rNodeCount rCache rData].
    unfold readDepth. rewrite readDepth_loop_walk by lia. rewrite Nat.sub_0_r. cbn [skipn]. rewrite <- L at 2. rewrite firstn_all.
    destruct (rwalk _ _ _ _) as [[n k]| | |]; reflexivity. }
  split; [intros ip L; apply S; [apply bits_len4; assumption|auto]|].
  intros ip. unfold find0. cbn [no_cache rMeta].
  destruct (is_nil (to4 ip)) eqn:E4; cbn [negb].
  - destruct (is_nil (to16 ip)) eqn:E16; cbn [negb]; [reflexivity|]. destruct (HasIPv6 (rMeta r)); [|reflexivity].
    rewrite S by (auto using bits_len16, to16_length' || (apply bits_len16, to16_length', is_nil_false; assumption)). reflexivity.
  - destruct (HasIPv4 (rMeta r)); [|reflexivity].
    rewrite S by (auto || (apply bits_len4, to4_length, is_nil_false; assumption)). reflexivity.
Qed.
Print Assumptions C14_prefix_cache.

(* ------------------------------------------------------------------ *)
(** C15: any sequence of BuildCache calls. *)
Fixpoint build_caches (r : Reader) (c : QCache) (calls : list (list (option bytes))) : res QCache :=
  match calls with
  | [] => Ok c
  | ips :: rest => let* c := BuildCache r c ips in build_caches r c rest
  end.
Theorem C15_build_cache_transparent : forall unmarshal data r calls c,
  newReaderFromBytes unmarshal data = Ok r -> build_caches r [] calls = Ok c ->
  forall ip, Query r c ip = Query r [] ip.
Proof.
  intros unmarshal data r calls c O B ip. pose proof (open_rinv _ _ _ O) as RI.
  assert (cinv r c) as C.
  { assert (cinv r []) as C0 by (intros ? ? X; discriminate). revert B C0. generalize (@nil (Z * IpInfo)) as c0.
    induction calls as [|ips calls IH]; intros c0 B C0; cbn [build_caches] in B; [injection B as <-; assumption|].
    destruct (BuildCache r c0 ips) as [c1| | |] eqn:E; cbn [bind] in B; try discriminate.
    apply (IH c1 B). eapply BuildCache_inv; eassumption. }
  unfold Query. rewrite !QueryInternal_cache by (try assumption; intros ? ? X; discriminate). reflexivity.
Qed.
Print Assumptions C15_build_cache_transparent.

(* ------------------------------------------------------------------ *)
(** C16 *)
Definition family_bits (a : N) : N := if v4b a then 32 else 128.

Lemma is_nil_to4 ip : valid_ip ip -> is_nil (to4 ip) = negb (v4b (addr ip)).
Proof.
  intros V. destruct (to4_spec ip V) as [T1 T2].
  unfold v4b, v4base. destruct (is_nil (to4 ip)) eqn:Q.
  - apply is_nil_true in Q. rewrite Q in T1.
    destruct (_ && _) eqn:Q2; [exfalso|reflexivity]. apply andb_true_iff in Q2 as [A B].
    apply N.leb_le in A. apply N.ltb_lt in B. apply T1; [|reflexivity]. split; [assumption|].
    change (65535 * 2 ^ 32 + 2 ^ 32)%N with (65536 * 2 ^ 32)%N in B. assumption.
  - apply is_nil_false in Q. apply T1 in Q as [A B]. symmetry. apply negb_false_iff, andb_true_iff.
    split; [apply N.leb_le; assumption|apply N.ltb_lt]. change (65535 * 2 ^ 32 + 2 ^ 32)%N with (65536 * 2 ^ 32)%N. assumption.
Qed.

Lemma abits_firstn_div a a' (k : nat) : (k <= 128)%nat -> (a / 2 ^ (128 - N.of_nat k) = a' / 2 ^ (128 - N.of_nat k))%N ->
  firstn k (abits a) = firstn k (abits a').
Proof.
  intros L H. unfold abits. rewrite !firstn_nbits by assumption.
  replace (N.of_nat (128 - k)) with (128 - N.of_nat k)%N by lia. rewrite H. reflexivity.
Qed.

Theorem C16_prefix_is_right : forall unmarshal data r ip node rec m,
  newReaderFromBytes unmarshal data = Ok r -> valid_ip ip -> find0 r ip = Ok (node, rec, m) ->
  (N.of_nat m <= family_bits (addr ip))%N /\
  forall ip', valid_ip ip' -> v4b (addr ip') = v4b (addr ip) ->
    (addr ip' / 2 ^ (family_bits (addr ip) - N.of_nat m) = addr ip / 2 ^ (family_bits (addr ip) - N.of_nat m))%N ->
    find0 r ip' = Ok (node, rec, m).
Proof.
  intros unmarshal data r ip node rec m O V F. pose proof (open_rinv _ _ _ O) as RI.
  unfold find0 in *. rewrite is_nil_to4, negb_involutive in F by assumption. unfold family_bits.
  assert (is_nil (to16 ip) = false) as E16.
  { apply is_nil_false. intros Q. pose proof (to16_length ip V) as L. rewrite Q in L. discriminate. }
  rewrite E16 in F. cbn [negb] in F.
  assert (forall x bc, length (bits x) = bc -> (bc = 32 \/ bc = 128)%nat ->
     (let* ' (n, k) := search r x bc in let* b := resolve r n in Ok (n, b, k)) = Ok (node, rec, m) ->
     (m <= bc)%nat /\ forall x', length (bits x') = bc -> firstn m (bits x') = firstn m (bits x) ->
       (let* ' (n, k) := search r x' bc in let* b := resolve r n in Ok (n, b, k)) = Ok (node, rec, m)) as G.
  { intros x bc L Hbc. rewrite search_walk by assumption.
    destruct (rwalk _ _ (bits x) _) as [[n k]| | |] eqn:W; cbn [bind]; try discriminate.
    destruct (Z.ltb_spec (rNodeCount r) n) as [Q|Q]; cbn [bind]; [|discriminate].
    destruct (resolve r n) as [b| | |] eqn:R; cbn [bind]; try discriminate.
    intros X. injection X as <- <- <-. destruct (rwalk_used _ _ _ _ _ _ W) as [U1 [_ U3]]. split; [lia|].
    intros x' L' E. rewrite search_walk by assumption. rewrite (U3 (bits x')) by (assumption || lia). cbn [bind].
    replace (rNodeCount r <? n) with true by lia. cbn [bind]. rewrite R. reflexivity. }
  destruct (v4b (addr ip)) eqn:E4.
  - destruct (HasIPv4 (rMeta r)) eqn:H4; [|discriminate].
    assert (to4 ip <> []) as N4 by (apply is_nil_false; rewrite is_nil_to4, E4 by assumption; reflexivity).
    destruct (G (to4 ip) 32%nat (bits_len4 _ (to4_length _ N4)) (or_introl eq_refl) F) as [L G2].
    split; [lia|]. intros ip' V' F' D. rewrite is_nil_to4, negb_involutive, F' by assumption.
    assert (to4 ip' <> []) as N4' by (apply is_nil_false; rewrite is_nil_to4, F' by assumption; reflexivity).
    apply G2; [apply bits_len4, to4_length; assumption|].
    assert (firstn (96 + m) (abits (addr ip')) = firstn (96 + m) (abits (addr ip))) as Q.
    { apply abits_firstn_div; [lia|]. replace (128 - N.of_nat (96 + m))%N with (32 - N.of_nat m)%N by lia. assumption. }
    rewrite <- (proj2 (proj2 (to4_spec ip V) N4)), <- (proj2 (proj2 (to4_spec ip' V') N4')) in Q.
    rewrite !abits_v4 in Q by (apply to4_length; assumption).
    rewrite !firstn_app in Q. rewrite !nbits_length in Q. replace (96 + m - 96)%nat with m in Q by lia.
    apply app_inv_head in Q. assumption.
  - destruct (HasIPv6 (rMeta r)) eqn:H6; [|discriminate].
    destruct (G (to16 ip) 128%nat (bits_len16 _ (to16_length _ V)) (or_intror eq_refl) F) as [L G2].
    split; [lia|]. intros ip' V' F' D. rewrite is_nil_to4, negb_involutive, F' by assumption.
    assert (is_nil (to16 ip') = false) as E16'.
    { apply is_nil_false. intros Q. pose proof (to16_length ip' V') as L'. rewrite Q in L'. discriminate. }
    rewrite E16'. cbn [negb]. apply G2; [apply bits_len16, to16_length; assumption|].
    rewrite !abits_to16 by assumption. apply abits_firstn_div; [lia|assumption].
Qed.
Print Assumptions C16_prefix_is_right.

(** C16: the network of findMap. *)
Theorem C16_findmap_network : forall unmarshal data r ip lang n rec,
  newReaderFromBytes unmarshal data = Ok r -> valid_ip ip -> findMap r ip lang = Ok (n, rec) ->
  exists b, net_is n b /\ aligned b /\ in_block b (addr ip) /\
    forall ip', valid_ip ip' -> in_block b (addr ip') -> v4b (addr ip') = v4b (addr ip) -> findMap r ip' lang = Ok (n, rec).
Proof.
  intros unmarshal data r ip lang n rec O V F. unfold findMap, find1 in *.
  destruct (assoc lang (mLanguages (rMeta r))) as [off|] eqn:EL; cbn [bind] in *; [|discriminate].
  destruct (find0 r ip) as [[[node body] m]| | |] eqn:F0; cbn [bind] in F; try discriminate.
  destruct (C16_prefix_is_right _ _ _ _ _ _ _ O V F0) as [L G].
  destruct (decodeInfo r body off) as [vals| | |] eqn:ED; cbn [bind] in F; try discriminate.
  injection F as Fn Fr. change (IpNet ip (Z.of_nat m) = n) in Fn.
  assert ((m <= (if is_nil (to4 ip) then 128 else 32))%nat) as Lm.
  { rewrite is_nil_to4 by assumption. unfold family_bits in L. destruct (v4b (addr ip)); cbn [negb]; lia. }
  destruct (IpNet_spec ip m V Lm) as [k [Ek Hn]]. rewrite Fn in Hn.
  assert (k = family_bits (addr ip) - N.of_nat m)%N as Ek2.
  { rewrite is_nil_to4 in Ek by assumption. unfold family_bits. destruct (v4b (addr ip)); cbn [negb] in Ek; lia. }
  eexists. split; [exact Hn|]. split; [apply floor_aligned|]. split; [apply floor_in|].
  intros ip' V' B F'. apply in_block_floor in B.
  rewrite (G ip' V' F') by (rewrite <- Ek2; assumption). cbn [bind]. rewrite ED. cbn [bind]. rewrite Fr. do 2 f_equal.
  change (IpNet ip' (Z.of_nat m) = n). rewrite <- Fn.
  assert ((m <= (if is_nil (to4 ip') then 128 else 32))%nat) as Lm'.
  { rewrite is_nil_to4 by assumption. rewrite F'. rewrite is_nil_to4 in Lm by assumption. assumption. }
  destruct (IpNet_spec ip' m V' Lm') as [k' [Ek' Hn']].
  rewrite is_nil_to4, F' in Ek' by assumption. rewrite is_nil_to4 in Ek by assumption.
  assert (k' = k) as -> by lia. rewrite B in Hn'. rewrite Fn.
  (* two networks of the same block, both in the spelling of the family *)
  assert (length (nIP (IpNet ip' (Z.of_nat m))) = length (nIP n)) as Len.
  { pose proof (ni_mask_len _ _ Hn') as A1. pose proof (ni_mask_len _ _ Hn) as A2. rewrite <- A1, <- A2, <- Fn.
    unfold IpNet. cbn [nMask]. rewrite !is_nil_to4, F' by assumption.
    destruct (v4b (addr ip)) eqn:E4; cbn [negb].
    - rewrite !to4_length by (apply is_nil_false; rewrite is_nil_to4 by assumption; rewrite ?F', ?E4; reflexivity). reflexivity.
    - rewrite !to16_length by assumption. reflexivity. }
  destruct Hn as [N1 N2 N3 N4 N5], Hn' as [M1 M2 M3 M4 M5]. cbn [base logsz] in *.
  destruct n as [ni nm], (IpNet ip' (Z.of_nat m)) as [ni' nm']. cbn [nIP nMask] in *.
  rewrite Len in *. f_equal.
  - apply addr_inj; [assumption|assumption|congruence].
  - apply val_inj; congruence.
Qed.
Print Assumptions C16_findmap_network.

(* ------------------------------------------------------------------ *)
(** C17: the data chunk holds the distinct joined records once each, as a two byte
    length (mod 65536) followed by the text. *)
Theorem C17_records_once : forall now ipd bs w,
  Forall2 net_ok (dIps ipd) bs -> plain_columns (dFields ipd) ->
  insert_all (pack_writer now ipd) (dIps ipd) = Ok w ->
  exists l, NoDup l /\
    wChunk w = flat_map (fun s => be_enc 2 (N.of_nat (length s) mod 65536) ++ s) l /\
    (forall row, (exists b, In (b, row) (store_all (combine bs (map fvals (dIps ipd))))) -> In (join x09 row) l).
Proof.
  intros now ipd bs w HR HC E. destruct (pack_winv now ipd bs HR HC) as [w0 [P [E0 [W [M S]]]]].
  rewrite E in E0. injection E0 as <-. destruct (hi_list _ _ (wi_h _ _ _ W)) as [l [Nd [El Il]]].
  exists l. split; [assumption|]. split; [exact El|]. intros row [b I].
  assert (In (b, join x09 row) (mapv (join x09) (store_all (rows_of (dIps ipd) bs)))) as I2.
  { unfold mapv. apply in_map_iff. exists (b, row). auto. }
  destruct (wi_in _ _ _ W _ _ I2) as [_ [off [_ A]]]. apply Il. congruence.
Qed.
Print Assumptions C17_records_once.

(** C17: what is read back, for records of any size. *)
Theorem C17_record_read_back : forall marshal unmarshal now ipd bs,
  Forall2 net_ok (dIps ipd) bs -> plain_columns (dFields ipd) -> dFields ipd <> [] -> json_ok marshal unmarshal now ipd ->
  exists data, pack marshal now ipd = Ok data /\
    (Z.of_nat (length data) < 2 ^ 32 ->
     exists r, newReaderFromBytes unmarshal data = Ok r /\
       forall ip b row, valid_ip ip -> holds_family (vIpType (dVersion ipd)) (addr ip) = true ->
         lookup (store_all (combine bs (map fvals (dIps ipd)))) (addr ip) = Some (b, row) ->
         exists node rec, find0 r ip = Ok (node, rec, prefix_len (addr ip) b) /\
           (N.of_nat (length (join x09 row)) < 65536 -> rec = join x09 row)%N /\
           (65536 <= N.of_nat (length (join x09 row)) ->
              rec = firstn (N.to_nat (N.of_nat (length (join x09 row)) mod 65536)) (join x09 row) /\
              (length rec < length (join x09 row))%nat)%N).
Proof.
  intros marshal unmarshal now ipd bs HR HC HF HJ. destruct (pack_winv now ipd bs HR HC) as [w [P [E [W [M S]]]]].
  exists (Save marshal w). unfold pack. rewrite E. cbn [bind]. split; [reflexivity|]. intros Hs.
  assert (length (Save marshal w) = 4 + length (marshal (save_meta w)) + length (OpenProofs.body w))%nat as Ls.
  { unfold Save, OpenProofs.body. rewrite !app_length, IntToBinaryBE_len32. lia. }
  assert (fits w) as Fit by (unfold fits; lia).
  destruct (open_packed w P _ W Fit marshal unmarshal) as [r [O [RI [Rm [Rd [Rn [Rf Rc]]]]]]].
  { rewrite S. pose proof (body_length w). apply HJ; lia. }
  { rewrite M. discriminate. }
  { rewrite M. cbn. destruct (dFields ipd); [congruence|discriminate]. }
  { lia. }
  exists r. split; [assumption|]. intros ip b row V F L.
  destruct (answer_supported r (vIpType (dVersion ipd)) ip V) as [Sup Mk].
  { rewrite Rm, S. reflexivity. }
  rewrite F in Sup. pose proof (find0_packed w P _ W Fit r ip RI Rd Rn Rf Sup) as X. rewrite mapv_lookup in X.
  unfold rows_of in X. rewrite L in X. destruct X as [node X]. rewrite Mk in X.
  change (2 ^ 16)%N with 65536%N in X.
  eexists node, _. split; [exact X|]. split.
  - intros Q. rewrite N.mod_small by assumption. rewrite Nat2N.id. apply firstn_all.
  - intros Q. split; [reflexivity|]. rewrite firstn_length.
    assert (N.of_nat (length (join x09 row)) mod 65536 < 65536)%N by (apply N.mod_lt; discriminate). flia.
Qed.
Print Assumptions C17_record_read_back.

(* ------------------------------------------------------------------ *)
(** C18 *)
Theorem C18_open_checks_sizes : forall unmarshal data r, newReaderFromBytes unmarshal data = Ok r ->
  exists ml meta, (4 <= length data)%nat /\ ml = Z.of_N (val (firstn 4 data)) /\
    unmarshal (firstn (Z.to_nat ml) (skipn 4 data)) = Some meta /\
    mLanguages meta <> [] /\ mFields meta <> [] /\ Z.of_nat (length data) = 4 + ml + mTotalSize meta.
Proof.
  intros unmarshal data r H. unfold newReaderFromBytes in H.
  destruct (slice data 0 4) as [h| | |] eqn:E1; cbn [bind] in H; try discriminate.
  apply slice_Ok in E1 as [L1 ->]. cbn [skipn Nat.sub] in H.
  set (ml := Z.of_N (val (firstn 4 data))) in *.
  destruct (Z.ltb_spec (Z.of_nat (length data)) (4 + ml)); [discriminate|].
  destruct (zslice data 4 (4 + ml)) as [mb| | |] eqn:E2; cbn [bind] in H; try discriminate.
  unfold zslice in E2. destruct (_ <? 0); [discriminate|]. destruct (_ <? 0); [discriminate|].
  apply slice_Ok in E2 as [L2 ->].
  replace (Z.to_nat (4 + ml) - Z.to_nat 4)%nat with (Z.to_nat ml) in H by lia. change (Z.to_nat 4) with 4%nat in H.
  destruct (unmarshal _) as [meta|] eqn:E3; [|discriminate].
  destruct (mLanguages meta) eqn:EL; [discriminate|]. destruct (mFields meta) eqn:EF; [discriminate|]. cbn [length Nat.eqb orb] in H.
  destruct (Z.eqb_spec (Z.of_nat (length data)) (4 + ml + mTotalSize meta)) as [E4|]; cbn [negb] in H; [|discriminate].
  exists ml, meta. split; [lia|]. split; [reflexivity|]. split; [assumption|]. rewrite EL, EF. split; [discriminate|]. split; [discriminate|assumption].
Qed.
Print Assumptions C18_open_checks_sizes.

Theorem C18_short_file_crashes : forall unmarshal data, (length data < 4)%nat -> newReaderFromBytes unmarshal data = Panic.
Proof.
  intros unmarshal data H. unfold newReaderFromBytes, slice.
  replace ((0 <=? 4)%nat && (4 <=? length data)%nat) with false by lia. reflexivity.
Qed.
Print Assumptions C18_short_file_crashes.

(** C18: a packed file that is cut or extended is rejected. *)
Theorem C18_truncated_or_extended : forall marshal unmarshal now ipd data,
  json_ok marshal unmarshal now ipd -> dFields ipd <> [] ->
  pack marshal now ipd = Ok data -> Z.of_nat (length data) < 2 ^ 32 ->
  (forall k, (4 <= k < length data)%nat -> newReaderFromBytes unmarshal (firstn k data) = Err ErrFileSize) /\
  (forall extra, extra <> [] -> newReaderFromBytes unmarshal (data ++ extra) = Err ErrFileSize).
Proof.
  intros marshal unmarshal now ipd data HJ HF E Hs. unfold pack in E.
  destruct (insert_all (pack_writer now ipd) (dIps ipd)) as [w| | |] eqn:EI; cbn [bind] in E; try discriminate. injection E as E.
  assert (wMeta w = meta_of now ipd 0 0) as M.
  { assert (wMeta (pack_writer now ipd) = meta_of now ipd 0 0) as Hc by reflexivity.
    revert EI Hc. clear. generalize (pack_writer now ipd) as w0. induction (dIps ipd) as [|r rs IH]; intros w0; cbn [insert_all].
    - intros Q. injection Q as <-. auto.
    - unfold insert at 1. destruct (mask_size _) as [mask sz].
      destruct (Nodes _ _ _) as [[[[n1 n2] n3] ok]| | |]; cbn [bind]; try discriminate. destruct ok; cbn [negb bind].
      + destruct (nget _ _ _) as [e| | |]; cbn [bind]; try discriminate. destruct (0 <? e); cbn [bind].
        * intros Q Hc. eapply IH; [exact Q|]. assumption.
        * cbn [wCont]. destruct (conv_values _ _); cbn [bind]; try discriminate.
          destruct (Fields _ _ _) as [[h c] o]. destruct (nset _ _ _ _); cbn [bind]; try discriminate.
          intros Q Hc. eapply IH; [exact Q|]. assumption.
      + intros Q Hc. eapply IH; [exact Q|]. assumption. }
  assert (save_meta w = meta_of now ipd (Z.of_nat (length (wNode w))) (Z.of_nat (length (OpenProofs.body w)))) as S.
  { unfold save_meta. rewrite M. unfold meta_of. cbn. f_equal. unfold OpenProofs.body. rewrite app_length. reflexivity. }
  set (md := marshal (save_meta w)) in *.
  set (h := IntToBinaryBE (Z.of_nat (length md)) 32).
  assert (length h = 4%nat) as Lh by apply IntToBinaryBE_len32.
  assert (data = h ++ md ++ OpenProofs.body w) as Ed by (rewrite <- E; reflexivity).
  assert (length data = 4 + length md + length (OpenProofs.body w))%nat as Ld by (rewrite Ed, !app_length, Lh; lia).
  assert (Z.of_N (val h) = Z.of_nat (length md)) as Vh by (apply IntToBinaryBE_val32; lia).
  assert (unmarshal md = Some (save_meta w)) as Um by (unfold md; rewrite S; pose proof (body_length w); apply HJ; lia).
  assert (forall rest, length rest <> length (OpenProofs.body w) -> newReaderFromBytes unmarshal (h ++ md ++ rest) = Err ErrFileSize) as G.
  { intros rest N. unfold newReaderFromBytes.
    assert (slice (h ++ md ++ rest) 0 4 = Ok h) as -> by (apply (slice_app [] h (md ++ rest)); [reflexivity|rewrite Lh; reflexivity]).
    cbn [bind]. rewrite Vh.
    assert (length (h ++ md ++ rest) = 4 + length md + length rest)%nat as Lr by (rewrite !app_length, Lh; lia).
    replace (Z.of_nat (length (h ++ md ++ rest)) <? 4 + Z.of_nat (length md)) with false by lia.
    rewrite zslice_app by (rewrite ?Lh; reflexivity). cbn [bind]. rewrite Um, S. cbn [meta_of mLanguages mFields mTotalSize].
    destruct (dFields ipd) as [|f fs]; [congruence|]. cbn [length Nat.eqb covertFields map orb].
    destruct (Z.eqb_spec (Z.of_nat (length (h ++ md ++ rest))) (4 + Z.of_nat (length md) + Z.of_nat (length (OpenProofs.body w)))) as [Q|Q]; cbn [negb]; [exfalso; lia|reflexivity]. }
  split.
  - intros k [K1 K2]. destruct (Nat.le_gt_cases (4 + length md) k) as [L|L].
    + assert (firstn k data = h ++ md ++ firstn (k - 4 - length md) (OpenProofs.body w)) as ->.
      { rewrite Ed, !firstn_app, Lh. rewrite (firstn_all2 h), (firstn_all2 md) by lia. reflexivity. }
      apply G. rewrite firstn_length. lia.
    + assert (firstn k data = h ++ firstn (k - 4) (md ++ OpenProofs.body w)) as ->.
      { rewrite Ed, firstn_app, Lh, (firstn_all2 h) by lia. reflexivity. }
      unfold newReaderFromBytes.
      assert (slice (h ++ firstn (k - 4) (md ++ OpenProofs.body w)) 0 4 = Ok h) as -> by
        (apply (slice_app [] h); [reflexivity|rewrite Lh; reflexivity]).
      cbn [bind]. rewrite Vh. rewrite app_length, firstn_length, Lh.
      match goal with |- context [if ?c then _ else _] => replace c with true by (symmetry; apply Z.ltb_lt; lia) end. reflexivity.
  - intros extra N. rewrite Ed, <- !app_assoc. apply G. rewrite app_length. destruct extra; [congruence|]. cbn [length]. lia.
Qed.
Print Assumptions C18_truncated_or_extended.

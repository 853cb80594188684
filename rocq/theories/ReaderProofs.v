(** The ipdb reader on arbitrary bytes: walks, the prefix cache, the query cache. *)
From Verif Require Import Base NetIP IpNet Spec IpNetProofs SplitProofs IpNetProofs2 Ipdb Bits.
Open Scope Z_scope.

(** A walk along a list of bits. *)
Fixpoint rwalk (data : bytes) (nc : Z) (bs : list bool) (node : Z) : res (Z * nat) :=
  match bs with
  | [] => Ok (node, O)
  | b :: r => if nc <=? node then Ok (node, O)
              else let* n := readNode data node b in
                   let* ' (n', k) := rwalk data nc r n in Ok (n', S k)
  end.

Lemma skipn_S' {A} i (l : list A) b r : skipn i l = b :: r -> skipn (S i) l = r.
Proof.
  revert l; induction i as [|i IH]; intros [|x l] H; cbn in *; try discriminate.
  - congruence.
  - apply IH. assumption.
Qed.

Lemma readDepth_loop_walk data nc cnt i node ip : (i + cnt <= length (bits ip))%nat ->
  readDepth_loop data nc cnt i node ip =
  let* ' (n, k) := rwalk data nc (firstn cnt (skipn i (bits ip))) node in Ok (n, (i + k)%nat).
Proof.
  revert i node; induction cnt as [|cnt IH]; intros i node H.
  - cbn. rewrite Nat.add_0_r. reflexivity.
  - destruct (skipn i (bits ip)) as [|b r] eqn:E.
    { apply (f_equal (@length _)) in E. rewrite skipn_length in E. cbn in E. lia. }
    cbn [readDepth_loop firstn rwalk]. destruct (nc <=? node); [cbn; rewrite Nat.add_0_r; reflexivity|].
    rewrite (ip_bit_ok _ _ _ _ E). cbn [bind].
    destruct (readNode data node b) as [n| | |]; cbn [bind]; try reflexivity.
    rewrite IH by lia. rewrite (skipn_S' _ _ _ _ E).
    destruct (rwalk data nc (firstn cnt r) n) as [[n' k]| | |]; cbn [bind]; try reflexivity.
    do 2 f_equal. lia.
Qed.

Lemma rwalk_app data nc a b node : rwalk data nc (a ++ b) node =
  let* ' (n, k) := rwalk data nc a node in let* ' (n', k') := rwalk data nc b n in Ok (n', (k + k')%nat).
Proof.
  revert node; induction a as [|c a IH]; intros node; cbn [app rwalk bind].
  - destruct (rwalk data nc b node) as [[n k]| | |]; reflexivity.
  - destruct (Z.leb_spec nc node) as [L|L].
    + cbn [bind]. destruct b as [|d b]; cbn [rwalk]; [reflexivity|]. replace (nc <=? node) with true by lia. reflexivity.
    + destruct (readNode data node c) as [n| | |]; cbn [bind]; try reflexivity. rewrite IH.
      destruct (rwalk data nc a n) as [[n1 k1]| | |]; cbn [bind]; try reflexivity.
      destruct (rwalk data nc b n1) as [[n2 k2]| | |]; cbn [bind]; reflexivity.
Qed.

Lemma rwalk_done data nc bs node : nc <= node -> rwalk data nc bs node = Ok (node, O).
Proof. intros H. destruct bs; cbn; [reflexivity|]. replace (nc <=? node) with true by lia. reflexivity. Qed.

(** The number of bits used, and which bits matter. *)
Lemma rwalk_used data nc bs node n k : rwalk data nc bs node = Ok (n, k) ->
  (k <= length bs)%nat /\ (nc <= n \/ k = length bs) /\
  (forall bs', (k <= length bs')%nat -> firstn k bs' = firstn k bs -> nc <= n -> rwalk data nc bs' node = Ok (n, k)).
Proof.
  revert node k; induction bs as [|b bs IH]; intros node k; cbn [rwalk length].
  - intros H. injection H as <- <-. split; [lia|]. split; [auto|]. intros bs' _ _ Hn. apply rwalk_done. assumption.
  - destruct (Z.leb_spec nc node) as [L|L].
    + intros H. injection H as <- <-. split; [lia|]. split; [auto|]. intros bs' _ _ Hn. apply rwalk_done. assumption.
    + destruct (readNode data node b) as [m| | |] eqn:E; cbn [bind]; try discriminate.
      destruct (rwalk data nc bs m) as [[n' k']| | |] eqn:E2; cbn [bind]; try discriminate.
      intros H. injection H as <- <-. destruct (IH _ _ E2) as [A [B C]]. split; [lia|]. split; [destruct B; [auto|right; lia]|].
      intros [|b' bs'] L1 Q Hn; cbn [length] in L1; [lia|]. cbn [firstn] in Q. injection Q as -> Q.
      cbn [rwalk]. replace (nc <=? node) with false by lia. rewrite E. cbn [bind].
      rewrite (C bs'); [reflexivity|lia|assumption|assumption].
Qed.

Lemma readNode_bound data node b n : readNode data node b = Ok n -> 0 <= n < 2 ^ 32.
Proof.
  unfold readNode. intros H. destruct (zslice _ _ _) as [s| | |] eqn:E; cbn [bind] in H; try discriminate.
  injection H as <-. unfold zslice in E.
  destruct (_ <? 0); [discriminate|]. destruct (_ <? 0); [discriminate|].
  apply slice_Ok in E as [E1 E2]. pose proof (val_bound s) as B.
  assert (length s <= 4)%nat as L.
  { rewrite E2, firstn_length. destruct b; lia. }
  split; [lia|]. enough (val s < 2 ^ 32)%N by (change (2 ^ 32) with 4294967296; change (2 ^ 32)%N with 4294967296%N in *; lia).
  eapply N.lt_le_trans; [exact B|]. apply N.pow_le_mono_r; lia.
Qed.
Lemma rwalk_nonneg data nc bs node n k : 0 <= node -> rwalk data nc bs node = Ok (n, k) -> 0 <= n.
Proof.
  revert node k; induction bs as [|b bs IH]; intros node k H0; cbn [rwalk]; intros H.
  - injection H as <- _. assumption.
  - destruct (nc <=? node); [injection H as <- _; assumption|].
    destruct (readNode data node b) as [m| | |] eqn:E; cbn [bind] in H; try discriminate.
    destruct (rwalk data nc bs m) as [[n' k']| | |] eqn:E2; cbn [bind] in H; try discriminate.
    injection H as <- <-. eapply IH; [|exact E2]. apply readNode_bound in E. lia.
Qed.

(** The walk to the IPv4 part. *)
Definition v4bits : list bool := repeat false 80 ++ repeat true 16.
Lemma v4bits_nbits : v4bits = nbits 96 0xffff.
Proof. reflexivity. Qed.
Lemma v4walk_walk data nc cnt i node : (i + cnt <= 96)%nat ->
  v4walk data nc cnt i node = let* ' (n, _) := rwalk data nc (firstn cnt (skipn i v4bits)) node in Ok n.
Proof.
  revert i node; induction cnt as [|cnt IH]; intros i node H; [reflexivity|].
  assert (skipn i v4bits = (80 <=? i)%nat :: skipn (S i) v4bits) as E.
  { assert (i < 96)%nat as L by lia. clear - L. do 96 (destruct i as [|i]; [reflexivity|]). lia. }
  rewrite E. cbn [v4walk firstn rwalk]. destruct (Z.ltb_spec node nc) as [L|L].
  - replace (nc <=? node) with false by lia.
    destruct (readNode data node (80 <=? i)%nat) as [n| | |]; cbn [bind]; try reflexivity.
    rewrite IH by lia. destruct (rwalk data nc _ n) as [[n' k]| | |]; reflexivity.
  - replace (nc <=? node) with true by lia. reflexivity.
Qed.

(* ---------- the prefix cache ---------- *)
Definition all_bytes : bytes := map (fun n => n2b (N.of_nat n)) (seq 0 256).
Lemma all_bytes_in b : In b all_bytes.
Proof.
  unfold all_bytes. apply in_map_iff. exists (N.to_nat (b2n b)). rewrite N2Nat.id. split; [apply n2b_b2n|].
  apply in_seq. pose proof (b2n_lt b). lia.
Qed.
Fixpoint list_eqb {A} (eqb : A -> A -> bool) (a b : list A) : bool :=
  match a, b with
  | [], [] => true
  | x :: a, y :: b => eqb x y && list_eqb eqb a b
  | _, _ => false
  end.
Definition index_check (b0 b1 : byte) : bool :=
  match bytesToIndex [b0; b1] with
  | Ok i => (i <? 16384)%N && list_eqb Bool.eqb (firstn 14 (bits (indexToBytes i))) (firstn 14 (bits [b0; b1]))
  | _ => false
  end.
Lemma index_check_all : forallb (fun b0 => forallb (index_check b0) all_bytes) all_bytes = true.
Proof. vm_compute. reflexivity. Qed.
Lemma list_eqb_bool a b : list_eqb Bool.eqb a b = true -> a = b.
Proof.
  revert b; induction a as [|x a IH]; intros [|y b]; cbn; try discriminate; [reflexivity|].
  intros H. apply andb_true_iff in H as [H1 H2]. apply Bool.eqb_prop in H1. f_equal; auto.
Qed.
Lemma bytesToIndex_spec b0 b1 r : exists i, bytesToIndex (b0 :: b1 :: r) = Ok i /\ (i < 16384)%N /\
  firstn 14 (bits (indexToBytes i)) = firstn 14 (bits (b0 :: b1 :: r)).
Proof.
  pose proof index_check_all as H. rewrite forallb_forall in H. specialize (H b0 (all_bytes_in b0)).
  rewrite forallb_forall in H. specialize (H b1 (all_bytes_in b1)). unfold index_check in H.
  change (bytesToIndex (b0 :: b1 :: r)) with (bytesToIndex [b0; b1]).
  destruct (bytesToIndex [b0; b1]) as [i| | |]; try discriminate. apply andb_true_iff in H as [H1 H2].
  exists i. split; [reflexivity|]. split; [apply N.ltb_lt; assumption|]. apply list_eqb_bool in H2. rewrite H2.
  reflexivity.
Qed.

Lemma mapM_nth {A B} (f : A -> res B) l bs i a : mapM f l = Ok bs -> nth_error l i = Some a ->
  exists b, nth_error bs i = Some b /\ f a = Ok b.
Proof.
  revert bs i; induction l as [|x l IH]; intros bs i H Hi; [destruct i; discriminate|].
  cbn [mapM] in H. destruct (f x) as [y| | |] eqn:E; cbn [bind] in H; try discriminate.
  destruct (mapM f l) as [ys| | |] eqn:E2; cbn [bind] in H; try discriminate. injection H as <-.
  destruct i as [|i]; cbn in *; [injection Hi as ->; eauto|]. eapply IH; eauto.
Qed.

Lemma cacheIndices_nth i : (i < 16384)%N -> nth_error cacheIndices (N.to_nat i) = Some i.
Proof.
  intros H. unfold cacheIndices. rewrite nth_error_map. 
  assert (nth_error (seq 0 (Nat.pow 2 14)) (N.to_nat i) = Some (N.to_nat i)) as ->.
  2:{ cbn [option_map]. rewrite N2Nat.id. reflexivity. }
  assert (forall n s k, (k < n)%nat -> nth_error (seq s n) k = Some (s + k)%nat) as Q.
  { clear. induction n as [|n IH]; intros s k L; [lia|]. destruct k as [|k]; cbn [seq nth_error].
    - f_equal. lia.
    - rewrite IH by lia. f_equal. lia. }
  rewrite Q; [reflexivity|]. 
  assert (N.of_nat (Nat.pow 2 14) = 16384)%N as E by (rewrite Nat2N.inj_pow; reflexivity).
  lia.
Qed.

Lemma pack_entry n k : (k < 32)%N -> N.shiftr (N.lor (N.shiftl n 5) k) 5 = n /\ N.land (N.lor (N.shiftl n 5) k) 31 = k.
Proof.
  intros H. assert (N.lor (N.shiftl n 5) k = n * 32 + k)%N as ->.
  { rewrite N.shiftl_mul_pow2. change (2 ^ 5)%N with 32%N.
    rewrite <- N.lxor_lor.
    - rewrite N.add_nocarry_lxor; [reflexivity|]. change 32%N with (2 ^ 5)%N. apply N.bits_inj. intros j.
      rewrite N.land_spec, N.bits_0. destruct (N.lt_ge_cases j 5) as [L|L].
      + rewrite N.mul_pow2_bits_low by assumption. reflexivity.
      + rewrite (N.bits_above_log2 k j), andb_false_r; [reflexivity|].
        destruct k as [|p]; [cbn; lia|]. apply N.log2_lt_pow2; [lia|]. eapply N.lt_le_trans; [exact H|].
        change 32%N with (2 ^ 5)%N. apply N.pow_le_mono_r; lia.
    - change 32%N with (2 ^ 5)%N. apply N.bits_inj. intros j.
      rewrite N.land_spec, N.bits_0. destruct (N.lt_ge_cases j 5) as [L|L].
      + rewrite N.mul_pow2_bits_low by assumption. reflexivity.
      + rewrite (N.bits_above_log2 k j), andb_false_r; [reflexivity|].
        destruct k as [|p]; [cbn; lia|]. apply N.log2_lt_pow2; [lia|]. eapply N.lt_le_trans; [exact H|].
        change 32%N with (2 ^ 5)%N. apply N.pow_le_mono_r; lia. }
  rewrite N.shiftr_div_pow2. change 31%N with (N.ones 5). rewrite N.land_ones. change (2 ^ 5)%N with 32%N. lia.
Qed.

(** A cache entry is the walk over the first 14 bits. *)
Lemma getCache_walk data nc v4 cache ip : 0 <= v4 -> initBitsCache data nc v4 = Ok cache -> length ip = 4%nat ->
  getCache cache ip = rwalk data nc (firstn 14 (bits ip)) v4.
Proof.
  intros H4 HC L. destruct ip as [|b0 [|b1 r]]; try discriminate.
  destruct (bytesToIndex_spec b0 b1 r) as [i [E [Hi EB]]].
  unfold getCache. rewrite E. cbn [bind].
  destruct (mapM_nth _ _ _ _ _ HC (cacheIndices_nth i Hi)) as [e [En Es]].
  unfold idx. rewrite En. cbn [bind]. unfold setCache, readDepth in Es.
  rewrite readDepth_loop_walk in Es by (cbn; lia). cbn [skipn] in Es.
  replace (cacheDepth - 0)%nat with 14%nat in Es by reflexivity. rewrite EB in Es.
  destruct (rwalk data nc (firstn 14 (bits (b0 :: b1 :: r))) v4) as [[n k]| | |] eqn:W; cbn [bind] in Es; try discriminate.
  assert (e = N.lor (N.shiftl (Z.to_N n) 5) (N.of_nat (0 + k))) as -> by congruence.
  pose proof (rwalk_nonneg _ _ _ _ _ _ H4 W) as Hn.
  destruct (rwalk_used _ _ _ _ _ _ W) as [Hk _]. rewrite firstn_length in Hk.
  destruct (pack_entry (Z.to_N n) (N.of_nat (0 + k))) as [P1 P2]; [lia|].
  rewrite P1, P2. do 2 f_equal; lia.
Qed.

(** Reader invariant established by opening. *)
Record rinv (r : Reader) : Prop := {
  ri_v4 : 0 <= rV4offset r;
  ri_cache : match rCache r with Some c => initBitsCache (rData r) (rNodeCount r) (rV4offset r) = Ok c | None => True end;
  ri_has : HasIPv4 (rMeta r) = match rCache r with Some _ => true | None => false end;
  ri_off : rCache r <> None -> exists k, rwalk (rData r) (rNodeCount r) v4bits 0 = Ok (rV4offset r, k) }.

Lemma search_walk r ip bc : rinv r -> length (bits ip) = bc -> (bc = 32 \/ bc = 128)%nat ->
  search r ip bc =
  let* ' (n, k) := rwalk (rData r) (rNodeCount r) (bits ip) (if (bc =? 32)%nat then rV4offset r else 0) in
  if rNodeCount r <? n then Ok (n, k) else Err ErrDataNotExists.
Proof.
  intros H L Hbc. unfold search.
  assert (forall node, readDepth (rData r) (rNodeCount r) node bc 0 ip = rwalk (rData r) (rNodeCount r) (bits ip) node) as Slow.
  { intros node. unfold readDepth. rewrite readDepth_loop_walk by lia. rewrite Nat.sub_0_r, <- L. cbn [skipn]. rewrite firstn_all.
    destruct (rwalk _ _ (bits ip) node) as [[n k]| | |]; reflexivity. }
  pose proof (ri_cache _ H) as HC. destruct (rCache r) as [cache|].
  2:{ rewrite Slow. reflexivity. }
  destruct (Nat.eqb_spec bc 32) as [E|E]; [|rewrite Slow; reflexivity].
  rewrite bits_length in L.
  rewrite (getCache_walk _ _ _ _ _ (ri_v4 _ H) HC) by lia.
  rewrite <- (firstn_skipn 14 (bits ip)) at 2. rewrite rwalk_app.
  destruct (rwalk _ _ (firstn 14 (bits ip)) _) as [[n k]| | |] eqn:W; cbn [bind]; try reflexivity.
  destruct (rwalk_used _ _ _ _ _ _ W) as [Hk [Hs _]].
  destruct (Z.ltb_spec (rNodeCount r) n) as [Q|Q].
  - rewrite rwalk_done by lia. cbn [bind]. replace (rNodeCount r <? n) with true by lia. rewrite Nat.add_0_r. reflexivity.
  - unfold readDepth. rewrite firstn_length in Hk, Hs. rewrite bits_length in Hk, Hs.
    destruct Hs as [Hs|Hs].
    + rewrite readDepth_loop_walk by (rewrite bits_length; lia). rewrite !rwalk_done by assumption. cbn [bind].
      rewrite Nat.add_0_r. reflexivity.
    + assert (k = 14%nat) as -> by lia.
      rewrite readDepth_loop_walk by (rewrite bits_length; lia).
      rewrite firstn_all2 by (rewrite skipn_length, bits_length; lia).
      destruct (rwalk _ _ (skipn 14 (bits ip)) n) as [[n2 k2]| | |]; cbn [bind]; reflexivity.
Qed.

Lemma open_rinv unmarshal data r : newReaderFromBytes unmarshal data = Ok r -> rinv r.
Proof.
  unfold newReaderFromBytes. intros H.
  destruct (slice data 0 4) as [h| | |]; cbn [bind] in H; try discriminate.
  destruct (_ <? _); [discriminate|].
  destruct (zslice data 4 _) as [mb| | |]; cbn [bind] in H; try discriminate.
  destruct (unmarshal mb) as [meta|]; [|discriminate].
  destruct (_ || _); [discriminate|]. destruct (negb _); [discriminate|].
  destruct (zslice data _ _) as [body| | |]; cbn [bind] in H; try discriminate.
  destruct (HasIPv4 meta) eqn:E4.
  - rewrite v4walk_walk in H by lia. change (skipn 0 v4bits) with v4bits in H.
    rewrite (firstn_all2 v4bits) in H by (vm_compute; lia).
    destruct (rwalk body (mNodeCount meta) v4bits 0) as [[v4 k]| | |] eqn:W; cbn [bind] in H; try discriminate.
    destruct (initBitsCache body (mNodeCount meta) v4) as [cache| | |] eqn:C; cbn [bind] in H; try discriminate.
    injection H as <-. constructor; cbn [rV4offset rCache rData rNodeCount rMeta].
    + eapply rwalk_nonneg; [|exact W]. lia.
    + assumption.
    + assumption.
    + eauto.
  - injection H as <-. constructor; cbn [rV4offset rCache rData rNodeCount rMeta]; try lia; auto. congruence.
Qed.

(* ---------- find0 ---------- *)
Definition body_of (r : Reader) (node : Z) : res bytes := if node =? 0 then Ok [] else resolve r node.

Lemma resolve_pos r node b : resolve r node = Ok b -> rNodeCount r < node -> 0 < node.
Proof.
  unfold resolve. intros H Hn. destruct (_ <=? _); [discriminate|].
  destruct (zslice (rData r) (node - rNodeCount r + rNodeCount r * 8) _) as [sz| | |] eqn:E; cbn [bind] in H; try discriminate.
  unfold zslice in E. destruct (Z.ltb_spec (node - rNodeCount r + rNodeCount r * 8) 0); [discriminate|]. lia.
Qed.

Lemma search_gt r ip bc n k : rinv r -> length (bits ip) = bc -> (bc = 32 \/ bc = 128)%nat ->
  search r ip bc = Ok (n, k) -> rNodeCount r < n.
Proof.
  intros H L Hbc. rewrite search_walk by assumption.
  destruct (rwalk _ _ _ _) as [[n' k']| | |]; cbn [bind]; try discriminate.
  destruct (Z.ltb_spec (rNodeCount r) n'); [|discriminate]. intros Q. injection Q as <- _. assumption.
Qed.

Lemma bits_len4 ip : length ip = 4%nat -> length (bits ip) = 32%nat.
Proof. intros H. rewrite bits_length, H. reflexivity. Qed.
Lemma bits_len16 ip : length ip = 16%nat -> length (bits ip) = 128%nat.
Proof. intros H. rewrite bits_length, H. reflexivity. Qed.

Lemma to4_length ip : to4 ip <> [] -> length (to4 ip) = 4%nat.
Proof.
  unfold to4. destruct (Nat.eqb_spec (length ip) 4) as [E|E]; [auto|].
  destruct (_ && _) eqn:Q; [|congruence]. intros _. repeat (apply andb_true_iff in Q as [Q ?]).
  apply Nat.eqb_eq in Q. rewrite skipn_length, Q. reflexivity.
Qed.
Lemma to16_length' ip : to16 ip <> [] -> length (to16 ip) = 16%nat.
Proof.
  unfold to16. destruct (Nat.eqb_spec (length ip) 4) as [E|E]; [intros _; rewrite app_length, E; reflexivity|].
  destruct (Nat.eqb_spec (length ip) 16); [auto|congruence].
Qed.
Lemma is_nil_false (l : bytes) : is_nil l = false <-> l <> [].
Proof. destruct l; cbn; split; congruence. Qed.
Lemma is_nil_true (l : bytes) : is_nil l = true <-> l = [].
Proof. destruct l; cbn; split; congruence. Qed.

Lemma find0_node r ip node body mask : rinv r -> find0 r ip = Ok (node, body, mask) ->
  node <> 0 /\ resolve r node = Ok body.
Proof.
  intros H. unfold find0.
  assert (forall x bc, length (bits x) = bc -> (bc = 32 \/ bc = 128)%nat ->
    (let* ' (n, m) := search r x bc in let* b := resolve r n in Ok (n, b, m)) = Ok (node, body, mask) ->
    node <> 0 /\ resolve r node = Ok body) as G.
  { intros x bc L Hbc. destruct (search r x bc) as [[n m]| | |] eqn:S; cbn [bind]; try discriminate.
    pose proof (search_gt _ _ _ _ _ H L Hbc S) as Hn.
    destruct (resolve r n) as [b| | |] eqn:R; cbn [bind]; try discriminate.
    intros Q. injection Q as <- <- _. split; [|assumption]. pose proof (resolve_pos _ _ _ R Hn). lia. }
  destruct (is_nil (to4 ip)) eqn:E4; cbn [negb].
  - destruct (is_nil (to16 ip)) eqn:E16; cbn [negb]; [discriminate|]. destruct (HasIPv6 _); [|discriminate].
    apply G; [apply bits_len16, to16_length', is_nil_false; assumption|auto].
  - destruct (HasIPv4 _); [|discriminate].
    apply G; [apply bits_len4, to4_length, is_nil_false; assumption|auto].
Qed.

(* ---------- the query cache ---------- *)
Definition info_of (r : Reader) (body : bytes) : res IpInfo :=
  match assoc (str "CN") (mLanguages (rMeta r)) with
  | None => Err ErrNoSupportLanguage
  | Some off => let* values := decodeInfo r body off in Ok (make_info (mFields (rMeta r)) values)
  end.
Definition cinv (r : Reader) (c : QCache) : Prop :=
  forall node v, qget node c = Some v -> exists body, body_of r node = Ok body /\ info_of r body = Ok v.

Lemma QueryInternal_false r c ip : QueryInternal r c ip false =
  let* ' (node, body, mask) := (match find0 r ip with Err _ => Ok (0, [], 0%nat) | x => x end) in
  let* info := info_of r body in Ok (node, info, mask).
Proof.
  unfold QueryInternal, info_of.
  destruct (match find0 r ip with Err _ => _ | x => x end) as [[[node body] mask]| | |]; cbn [bind]; try reflexivity.
  destruct (assoc _ _); cbn [bind]; [|reflexivity]. destruct (decodeInfo r body z); reflexivity.
Qed.

Lemma find0_body r ip node body mask : rinv r ->
  (match find0 r ip with Err _ => Ok (0, [], 0%nat) | x => x end) = Ok (node, body, mask) -> body_of r node = Ok body.
Proof.
  intros H Q. unfold body_of. destruct (find0 r ip) as [[[n b] m]| | |] eqn:E; try discriminate.
  - injection Q as <- <- <-. destruct (find0_node _ _ _ _ _ H E) as [N R].
    destruct (Z.eqb_spec n 0); [contradiction|assumption].
  - injection Q as <- <- _. reflexivity.
Qed.

Lemma QueryInternal_cache r c ip : rinv r -> cinv r c ->
  QueryInternal r c ip true = QueryInternal r [] ip false.
Proof.
  intros H C. rewrite QueryInternal_false. unfold QueryInternal, info_of.
  destruct (match find0 r ip with Err _ => _ | x => x end) as [[[node body] mask]| | |] eqn:E; cbn [bind]; try reflexivity.
  destruct (qget node c) as [v|] eqn:G.
  - destruct (C node v G) as [body' [B I]]. rewrite (find0_body _ _ _ _ _ H E) in B. injection B as <-.
    unfold info_of in I. rewrite I. reflexivity.
  - destruct (assoc _ _); cbn [bind]; [|reflexivity]. destruct (decodeInfo r body z); reflexivity.
Qed.

Lemma BuildCache_inv r c ips c' : rinv r -> cinv r c -> BuildCache r c ips = Ok c' -> cinv r c'.
Proof.
  intros H. revert c; induction ips as [|[ip|] ips IH]; intros c C; cbn [BuildCache].
  - intros Q. injection Q as <-. assumption.
  - rewrite QueryInternal_false.
    destruct (match find0 r ip with Err _ => _ | x => x end) as [[[node body] mask]| | |] eqn:E; cbn [bind]; try discriminate; [|apply IH; assumption].
    destruct (info_of r body) as [info| | |] eqn:I; cbn [bind]; try discriminate; [|apply IH; assumption].
    apply IH. intros n v. cbn [qget]. destruct (Z.eqb_spec node n) as [<-|Ne]; [|apply C].
    intros Q. injection Q as <-. exists body. split; [|assumption]. eapply find0_body; eassumption.
  - apply IH. assumption.
Qed.

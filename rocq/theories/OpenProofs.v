(** Reading back what the ipdb writer wrote. *)
From Verif Require Import Base NetIP IpNet Spec IpNetProofs SplitProofs IpNetProofs2 Ipdb SpecIpdb Bits.
From Verif Require Import TrieProofs WriterProofs ReaderProofs.
Open Scope Z_scope.

(** The tree and data part of a packed file. *)
Definition body (w : Writer) : bytes := node_chunk (wNode w) ++ wChunk w.

Lemma IntToBinaryBE_len32 v : length (IntToBinaryBE v 32) = 4%nat.
Proof. unfold IntToBinaryBE. cbn [Z.eqb Pos.eqb]. apply be_enc_length. Qed.
Lemma IntToBinaryBE_val32 v : 0 <= v < 2 ^ 32 -> Z.of_N (val (IntToBinaryBE v 32)) = v.
Proof.
  intros H. unfold IntToBinaryBE. cbn [Z.eqb Pos.eqb]. rewrite val_be_enc.
  change (2 ^ (8 * N.of_nat 4))%N with 4294967296%N. change (2 ^ 32) with 4294967296 in *. lia.
Qed.

Lemma flat_nodes_length (f : Z * Z -> bytes) l : (forall p, length (f p) = 8%nat) -> length (flat_map f l) = (8 * length l)%nat.
Proof. intros H. induction l as [|p l IH]; [reflexivity|]. cbn [flat_map length]. rewrite app_length, H, IH. lia. Qed.

Lemma node_out_len nc v : length (node_out nc v) = 4%nat.
Proof. apply IntToBinaryBE_len32. Qed.

Lemma node_chunk_length nodes : length (node_chunk nodes) = (8 * length nodes + 8)%nat.
Proof.
  unfold node_chunk. rewrite !app_length, !IntToBinaryBE_len32.
  rewrite flat_nodes_length; [lia|]. intros p. rewrite app_length, !node_out_len. reflexivity.
Qed.

Lemma zslice_app (a b c : bytes) lo hi : lo = Z.of_nat (length a) -> hi = lo + Z.of_nat (length b) ->
  zslice (a ++ b ++ c) lo hi = Ok b.
Proof.
  intros -> ->. unfold zslice. replace (_ <? 0) with false by lia. replace (_ <? 0) with false by lia.
  apply slice_app; lia.
Qed.

Lemma readNode_packed nodes rest i b e v :
  get nodes i b = Some e -> v = (if e <=? 0 then Z.of_nat (length nodes) - e else e) -> 0 <= v < 2 ^ 32 ->
  readNode (node_chunk nodes ++ rest) (Z.of_nat i) b = Ok v.
Proof.
  intros G Hv Hb. unfold get in G. destruct (nth_error nodes i) as [p|] eqn:E; [|discriminate]. injection G as G.
  destruct (nth_error_split _ _ E) as [l1 [l2 [El Li]]].
  unfold node_chunk. set (nc := Z.of_nat (length nodes)) in *.
  set (f := fun p : Z * Z => node_out nc (fst p) ++ node_out nc (snd p)).
  assert (length (flat_map f l1) = 8 * i)%nat as Lf.
  { rewrite flat_nodes_length; [lia|]. intros q. unfold f. rewrite app_length, !node_out_len. reflexivity. }
  assert (flat_map f nodes = flat_map f l1 ++ f p ++ flat_map f l2) as Ef.
  { rewrite El, flat_map_app. reflexivity. }
  rewrite Ef. clear El Ef. unfold f at 2. rewrite <- !app_assoc.
  set (tl := flat_map f l2 ++ _). clearbody tl. unfold readNode.
  assert (Z.of_N (val (node_out nc e)) = v) as Hval.
  { unfold node_out. rewrite <- Hv. apply IntToBinaryBE_val32. assumption. }
  destruct b; unfold pair_get in G; rewrite G.
  - rewrite (app_assoc (flat_map f l1)).
    rewrite (zslice_app (flat_map f l1 ++ node_out nc (fst p)) (node_out nc e) tl).
    + cbn [bind]. congruence.
    + rewrite app_length, node_out_len, Lf. lia.
    + rewrite node_out_len. lia.
  - rewrite (zslice_app (flat_map f l1) (node_out nc e) (node_out nc (snd p) ++ tl)).
    + cbn [bind]. congruence.
    + rewrite Lf. lia.
    + rewrite node_out_len. lia.
Qed.

(** Everything fits in the 32-bit numbers of the format. *)
Definition fits (w : Writer) : Prop := Z.of_nat (length (body w)) < 2 ^ 32.

Section Packed.
Context (w : Writer) (P : list path_t) (m : list (block * bytes)).
Hypothesis HW : winv w P m.
Hypothesis HF : fits w.
Let nc := Z.of_nat (length (wNode w)).

Lemma body_length : Z.of_nat (length (body w)) = nc * 8 + 8 + Z.of_nat (length (wChunk w)).
Proof. unfold body, nc. rewrite app_length, node_chunk_length. lia. Qed.

Lemma readNode_body j b p : nth_error P j = Some p ->
  exists e, get (wNode w) j b = Some e /\ readNode (body w) (Z.of_nat j) b = Ok (if e <=? 0 then nc - e else e) /\
    (0 < e -> nth_error P (Z.to_nat e) = Some (p ++ [b]) /\ e < nc) /\
    (e < 0 -> stored (wNode w) (p ++ [b]) (- e)).
Proof.
  intros Hj. pose proof (wi_t _ _ _ HW) as HT.
  destruct (tinv_get_some _ _ j b p HT Hj) as [e G]. exists e. split; [assumption|].
  assert (0 < e -> nth_error P (Z.to_nat e) = Some (p ++ [b]) /\ e < nc) as Hpos.
  { intros L. pose proof (ti_edge _ _ HT _ _ _ _ G L Hj) as Q. split; [assumption|].
    assert (Z.to_nat e < length P)%nat as Q2 by (apply nth_error_Some; congruence).
    rewrite (ti_len _ _ HT) in Q2. unfold nc. lia. }
  assert (e < 0 -> stored (wNode w) (p ++ [b]) (- e)) as Hneg.
  { intros L. exists p, b, j. split; [reflexivity|]. split; [apply (ti_reach _ _ HT); assumption|].
    split; [rewrite G; f_equal; lia|lia]. }
  split; [|auto].
  unfold body. apply (readNode_packed (wNode w) (wChunk w) j b e); [assumption|fold nc; reflexivity|].
  assert (- e < Z.of_nat (length (wChunk w)) + 8 \/ 0 <= e) as Q.
  { destruct (Z.lt_ge_cases e 0) as [L|L]; [left|auto].
    destruct (wi_st _ _ _ HW _ _ (Hneg L)) as [bb [s [_ [_ A]]]].
    pose proof (hi_lt _ _ (wi_h _ _ _ HW) _ _ A). lia. }
  pose proof body_length as BL. assert (0 <= nc) as Hnc by (unfold nc; lia). pose proof HF as HF'. unfold fits in HF'. fold nc.
  clear - Q Hpos BL Hnc HF'. clearbody nc. rewrite BL in HF'. change (2 ^ 32) with 4294967296 in *.
  destruct (Z.leb_spec e 0) as [L|L]; [lia|]. destruct (Hpos L). lia.
Qed.

Lemma rwalk_packed bs : forall j p, nth_error P j = Some p ->
  exists n k, rwalk (body w) nc bs (Z.of_nat j) = Ok (n, k) /\
  ((exists r s off, bs = r ++ s /\ stored (wNode w) (p ++ r) off /\ n = nc + off /\ k = length r) \/
   (n <= nc /\ forall r s off, bs = r ++ s -> r <> [] -> ~ stored (wNode w) (p ++ r) off)).
Proof.
  pose proof (wi_t _ _ _ HW) as HT.
  induction bs as [|b bs IH]; intros j p Hj; cbn [rwalk].
  - exists (Z.of_nat j), 0%nat. split; [reflexivity|]. right. split.
    + assert (j < length P)%nat by (apply nth_error_Some; congruence). rewrite (ti_len _ _ HT) in *. unfold nc. lia.
    + intros r s off E N. destruct r; [congruence|discriminate].
  - assert (Z.of_nat j < nc) as Lj.
    { assert (j < length P)%nat by (apply nth_error_Some; congruence). rewrite (ti_len _ _ HT) in *. unfold nc. lia. }
    replace (nc <=? Z.of_nat j) with false by lia.
    destruct (readNode_body j b p Hj) as [e [G [R [Hp Hn]]]]. rewrite R. cbn [bind].
    destruct (Z.leb_spec e 0) as [L|L].
    + rewrite rwalk_done by lia. cbn [bind]. exists (nc - e), 1%nat. split; [reflexivity|].
      destruct (Z.eq_dec e 0) as [->|Ne].
      * right. split; [lia|]. intros r s off E N S. destruct r as [|c r]; [congruence|].
        cbn [app] in E. injection E as <- E. 
        destruct S as [pq [d [i [Eq [Rr [Gd Lo]]]]]].
        assert (reach (wNode w) 0 (p ++ [b]) = None) as RN.
        { rewrite reach_app, (ti_reach _ _ HT _ _ Hj). cbn [reach]. rewrite G. reflexivity. }
        destruct r as [|d' r _] using rev_ind.
        -- apply app_inj_tail in Eq as [<- <-]. rewrite (ti_reach _ _ HT _ _ Hj) in Rr. injection Rr as <-.
           rewrite G in Gd. injection Gd as Gd. lia.
        -- rewrite app_comm_cons, app_assoc in Eq. apply app_inj_tail in Eq as [<- _].
           replace (p ++ b :: r) with ((p ++ [b]) ++ r) in Rr by (rewrite <- app_assoc; reflexivity).
           rewrite reach_app, RN in Rr. discriminate.
      * left. exists [b], bs, (- e). split; [reflexivity|]. split; [apply Hn; lia|]. split; [lia|reflexivity].
    + destruct (Hp L) as [Hp1 Hp2].
      destruct (IH (Z.to_nat e) (p ++ [b]) Hp1) as [n [k [W C]]]. rewrite Z2Nat.id in W by lia. rewrite W. cbn [bind].
      exists n, (S k). split; [reflexivity|]. destruct C as [[r [s [off [E1 [E2 [E3 E4]]]]]]|[C1 C2]].
      * left. exists (b :: r), s, off. split; [cbn; congruence|]. split; [rewrite <- app_assoc in E2; exact E2|]. split; [assumption|cbn; congruence].
      * right. split; [assumption|]. intros r s off E N S. destruct r as [|c r]; [congruence|].
        cbn [app] in E. injection E as <- E. destruct r as [|d r].
        -- destruct S as [pq [d [i [Eq [Rr [Gd Lo]]]]]]. apply app_inj_tail in Eq as [<- <-].
           rewrite (ti_reach _ _ HT _ _ Hj) in Rr. injection Rr as <-. rewrite G in Gd. injection Gd as Gd. lia.
        -- apply (C2 (d :: r) s off E ltac:(discriminate)). rewrite <- app_assoc. exact S.
Qed.

(** Entries of the map are disjoint and determined by any address in them. *)
Lemma entry_unique b1 s1 b2 s2 a : In (b1, s1) m -> In (b2, s2) m -> (a < 2 ^ 128)%N ->
  in_block b1 a -> in_block b2 a -> b1 = b2 /\ s1 = s2.
Proof.
  intros I1 I2 Ha B1 B2.
  destruct (wi_in _ _ _ HW _ _ I1) as [W1 [o1 [S1 A1]]]. destruct (wi_in _ _ _ HW _ _ I2) as [W2 [o2 [S2 A2]]].
  apply prefix_path_in in B1; [|assumption..]. apply prefix_path_in in B2; [|assumption..].
  assert (path b1 = path b2 /\ o1 = o2) as [E ->].
  { destruct (Nat.le_ge_cases (length (path b1)) (length (path b2))) as [L|L].
    - exact (stored_prefix_free _ _ _ _ _ S1 S2 (prefix_total _ _ _ B1 B2 L)).
    - destruct (stored_prefix_free _ _ _ _ _ S2 S1 (prefix_total _ _ _ B2 B1 L)). split; congruence. }
  split; [apply path_inj; assumption|]. exact (hi_inj _ _ (wi_h _ _ _ HW) _ _ _ A1 A2).
Qed.

Lemma lookup_iff a b s : (a < 2 ^ 128)%N -> (lookup m a = Some (b, s) <-> In (b, s) m /\ in_block b a).
Proof.
  intros Ha. unfold lookup. split.
  - intros H. apply find_some in H as [I B]. cbn [fst] in B. apply in_blockb_iff in B. auto.
  - intros [I B]. destruct (find (fun e => in_blockb (fst e) a) m) as [[b' s']|] eqn:F.
    + apply find_some in F as [I' B']. cbn [fst] in B'. apply in_blockb_iff in B'.
      destruct (entry_unique _ _ _ _ _ I I' Ha B B') as [-> ->]. reflexivity.
    + exfalso. pose proof (find_none _ _ F _ I) as Q. cbn [fst] in Q. apply in_blockb_iff in B. congruence.
Qed.

Lemma rwalk_lookup a : (a < 2 ^ 128)%N ->
  exists n k, rwalk (body w) nc (abits a) 0 = Ok (n, k) /\
  match lookup m a with
  | Some (b, s) => exists off, assoc s (wHash w) = Some off /\ n = nc + off /\ k = (128 - N.to_nat (logsz b))%nat /\ nc < n
  | None => n <= nc
  end.
Proof.
  intros Ha. destruct (rwalk_packed (abits a) 0 [] (ti_root _ _ (wi_t _ _ _ HW))) as [n [k [W C]]].
  exists n, k. split; [exact W|]. cbn [app] in C. destruct C as [[r [s [off [E1 [E2 [E3 E4]]]]]]|[C1 C2]].
  - destruct (wi_st _ _ _ HW _ _ E2) as [b [t [I [Eq A]]]].
    destruct (wi_in _ _ _ HW _ _ I) as [Wb _].
    assert (in_block b a) as B by (apply prefix_path_in; [assumption|assumption|exists s; rewrite <- Eq; assumption]).
    rewrite (proj2 (lookup_iff a b t Ha) (conj I B)). exists off. split; [assumption|]. split; [assumption|].
    split; [rewrite E4, Eq; apply path_length|]. destruct E2 as [? [? [? [_ [_ [_ ?]]]]]]. lia.
  - destruct (lookup m a) as [[b t]|] eqn:L; [exfalso|assumption].
    apply lookup_iff in L as [I B]; [|assumption].
    destruct (wi_in _ _ _ HW _ _ I) as [Wb [off [S _]]].
    apply prefix_path_in in B; [|assumption..]. destruct B as [s B].
    apply (C2 (path b) s off B); [|assumption].
    destruct S as [? [? [? [-> _]]]]. destruct x; discriminate.
Qed.

(** IPv4: the walk below the IPv4 node. *)
Lemma rwalk_lookup4 ip v4 k0 : length ip = 4%nat -> rwalk (body w) nc v4bits 0 = Ok (v4, k0) ->
  exists n k, rwalk (body w) nc (bits ip) v4 = Ok (n, k) /\
  match lookup m (addr ip) with
  | Some (b, s) => exists off, assoc s (wHash w) = Some off /\ n = nc + off /\ k = (32 - N.to_nat (logsz b))%nat /\ nc < n
  | None => n <= nc
  end.
Proof.
  intros L W4. assert (valid_ip ip) as V by (left; assumption).
  destruct (rwalk_lookup (addr ip) (addr_bound ip V)) as [n [k [W C]]].
  rewrite abits_v4, <- v4bits_nbits in W by assumption. rewrite rwalk_app, W4 in W. cbn [bind] in W.
  destruct (rwalk (body w) nc (bits ip) v4) as [[n' k']| | |] eqn:W2; cbn [bind] in W; try discriminate.
  injection W as <- Ek. exists n', k'. split; [reflexivity|].
  destruct (lookup m (addr ip)) as [[b s]|] eqn:Lk; [|assumption].
  destruct C as [off [A [E1 [E2 E3]]]]. exists off. split; [assumption|]. split; [assumption|]. split; [|assumption].
  destruct (rwalk_used _ _ _ _ _ _ W4) as [U1 [U2 _]]. change (length v4bits) with 96%nat in *.
  destruct U2 as [U2|U2]; [|lia].
  rewrite rwalk_done in W2 by assumption. injection W2 as <- <-. lia.
Qed.

(** Records. *)
Lemma resolve_packed r s off : rData r = body w -> rNodeCount r = nc -> rFileSize r >= Z.of_nat (length (body w)) ->
  assoc s (wHash w) = Some off ->
  resolve r (nc + off) = Ok (firstn (N.to_nat (N.of_nat (length s) mod 2 ^ 16)) s).
Proof.
  intros Hd Hn Hf A. destruct (hi_at _ _ (wi_h _ _ _ HW) _ _ A) as [a [c [E O]]].
  pose proof body_length as BL. unfold resolve. rewrite Hn, Hd.
  set (hd := node_chunk (wNode w)).
  assert (length hd = 8 * length (wNode w) + 8)%nat as Lh by apply node_chunk_length.
  assert (body w = (hd ++ a) ++ be_enc 2 (N.of_nat (length s) mod 2 ^ 16) ++ s ++ c) as Eb.
  { unfold body. rewrite E. rewrite <- app_assoc. reflexivity. }
  assert (length (wChunk w) = length a + 2 + length s + length c)%nat as Lc.
  { rewrite E, !app_length, be_enc_length. lia. }
  replace (nc + off - nc + nc * 8) with (Z.of_nat (length (hd ++ a))) by (rewrite app_length; unfold nc; lia).
  set (lo := Z.of_nat (length (hd ++ a))).
  assert (lo + 2 + Z.of_nat (length s) + Z.of_nat (length c) = Z.of_nat (length (body w))) as Llo.
  { unfold lo. rewrite BL, Lc, app_length. unfold nc. lia. }
  replace (rFileSize r <=? lo) with false by lia.
  rewrite Eb. rewrite zslice_app by (try reflexivity; rewrite be_enc_length; reflexivity). cbn [bind].
  rewrite <- Eb. clear Hf BL.
  assert (val (be_enc 2 (N.of_nat (length s) mod 2 ^ 16)) = N.of_nat (length s) mod 2 ^ 16)%N as Ev.
  { rewrite val_be_enc. change (2 ^ (8 * N.of_nat 2))%N with (2 ^ 16)%N. apply N.mod_mod. discriminate. }
  rewrite Ev. set (sz := (N.of_nat (length s) mod 2 ^ 16)%N).
  assert (sz <= N.of_nat (length s))%N as Hsz by (apply N.mod_le; discriminate).
  replace (Z.of_nat (length (body w)) <? lo + 2 + Z.of_N sz) with false by lia.
  assert (body w = ((hd ++ a) ++ be_enc 2 sz) ++ firstn (N.to_nat sz) s ++ (skipn (N.to_nat sz) s ++ c)) as Eb2.
  { rewrite Eb, <- !app_assoc. do 3 f_equal. rewrite app_assoc, firstn_skipn. reflexivity. }
  rewrite Eb2. apply zslice_app.
  - unfold lo. rewrite !app_length, be_enc_length. lia.
  - rewrite firstn_length. lia.
Qed.

(** Looking up an address in an opened packed database. *)
Definition mask_for (ip : bytes) (b : block) : nat :=
  (if is_nil (to4 ip) then 128 - N.to_nat (logsz b) else 32 - N.to_nat (logsz b))%nat.
Definition supported (meta : MetaData) (ip : bytes) : bool :=
  if is_nil (to4 ip) then negb (is_nil (to16 ip)) && HasIPv6 meta else HasIPv4 meta.

Lemma find0_packed r ip : rinv r -> rData r = body w -> rNodeCount r = nc -> rFileSize r >= Z.of_nat (length (body w)) ->
  supported (rMeta r) ip = true ->
  match lookup m (addr ip) with
  | Some (b, s) => exists node, find0 r ip = Ok (node, firstn (N.to_nat (N.of_nat (length s) mod 2 ^ 16)) s, mask_for ip b)
  | None => find0 r ip = Err ErrDataNotExists
  end.
Proof.
  intros RI Hd Hn Hf Sup. unfold supported in Sup. unfold find0, mask_for.
  destruct (is_nil (to4 ip)) eqn:E4; cbn [negb].
  - apply andb_true_iff in Sup as [E16 S6]. rewrite E16, S6.
    assert (is_nil (to16 ip) = false) as N16 by (destruct (is_nil (to16 ip)); [discriminate|reflexivity]).
    apply is_nil_false in N16. pose proof (to16_length' _ N16) as L16.
    assert (valid_ip ip) as V.
    { unfold to16 in N16. unfold valid_ip. destruct (Nat.eqb_spec (length ip) 4); [auto|].
      destruct (Nat.eqb_spec (length ip) 16); [auto|congruence]. }
    rewrite search_walk by auto using bits_len16. cbn [Nat.eqb]. rewrite Hd, Hn.
    rewrite abits_to16 by assumption.
    destruct (rwalk_lookup (addr ip) (addr_bound ip V)) as [n [k [W C]]]. rewrite W. cbn [bind].
    destruct (lookup m (addr ip)) as [[b s]|].
    + destruct C as [off [A [-> [-> L]]]]. replace (nc <? nc + off) with true by lia. cbn [bind].
      rewrite (resolve_packed r s off) by assumption. cbn [bind]. eauto.
    + replace (nc <? n) with false by lia. reflexivity.
  - rewrite Sup. apply is_nil_false in E4. pose proof (to4_length _ E4) as L4.
    assert (addr (to4 ip) = addr ip) as Ea.
    { apply to4_spec; [|assumption]. unfold to4 in E4. unfold valid_ip.
      destruct (Nat.eqb_spec (length ip) 4); [auto|]. destruct (Nat.eqb_spec (length ip) 16); [auto|cbn in E4; congruence]. }
    rewrite search_walk by auto using bits_len4. cbn [Nat.eqb]. rewrite Hd, Hn.
    pose proof (ri_has _ RI) as RH. rewrite Sup in RH.
    destruct (ri_off _ RI) as [k0 W4]; [destruct (rCache r); [discriminate|congruence]|].
    rewrite Hd, Hn in W4.
    destruct (rwalk_lookup4 (to4 ip) _ _ L4 W4) as [n [k [W C]]]. rewrite W. cbn [bind].
    rewrite Ea in C. destruct (lookup m (addr ip)) as [[b s]|].
    + destruct C as [off [A [-> [-> L]]]]. replace (nc <? nc + off) with true by lia. cbn [bind].
      rewrite (resolve_packed r s off) by assumption. cbn [bind]. eauto.
    + replace (nc <? n) with false by lia. reflexivity.
Qed.

(** Walks on a packed table never crash. *)
Lemma rwalk_v4_ok : exists v4 k0, rwalk (body w) nc v4bits 0 = Ok (v4, k0) /\ 0 <= v4 /\
  forall bs, exists n k, rwalk (body w) nc bs v4 = Ok (n, k).
Proof.
  destruct (rwalk_packed v4bits 0 [] (ti_root _ _ (wi_t _ _ _ HW))) as [n [k [W C]]].
  exists n, k. split; [exact W|]. split; [eapply rwalk_nonneg; [|exact W]; lia|].
  intros bs. 
  destruct (rwalk_packed (v4bits ++ bs) 0 [] (ti_root _ _ (wi_t _ _ _ HW))) as [n' [k' [W' _]]].
  cbn [Z.of_nat] in W'. rewrite rwalk_app in W'. cbn [Z.of_nat] in W. rewrite W in W'. cbn [bind] in W'.
  destruct (rwalk (body w) nc bs n) as [[n2 k2]| | |]; try discriminate. eauto.
Qed.

Lemma mapM_total {A B} (f : A -> res B) l : (forall a, In a l -> exists b, f a = Ok b) -> exists bs, mapM f l = Ok bs.
Proof.
  induction l as [|a l IH]; intros H; cbn [mapM]; [eauto|].
  destruct (H a (or_introl eq_refl)) as [b ->]. cbn [bind].
  destruct IH as [bs ->]; [intros; apply H; right; assumption|]. cbn [bind]. eauto.
Qed.

Lemma initBitsCache_packed v4 : (forall bs, exists n k, rwalk (body w) nc bs v4 = Ok (n, k)) ->
  exists c, initBitsCache (body w) nc v4 = Ok c.
Proof.
  intros H. apply mapM_total. intros i _. unfold setCache, readDepth.
  rewrite readDepth_loop_walk by (cbn; lia). destruct (H (firstn (cacheDepth - 0) (skipn 0 (bits (indexToBytes i))))) as [n [k ->]].
  cbn [bind]. eauto.
Qed.

(** Opening the saved bytes. *)
Lemma open_packed marshal unmarshal :
  unmarshal (marshal (save_meta w)) = Some (save_meta w) -> mLanguages (wMeta w) <> [] -> mFields (wMeta w) <> [] ->
  Z.of_nat (length (marshal (save_meta w))) < 2 ^ 32 ->
  exists r, newReaderFromBytes unmarshal (Save marshal w) = Ok r /\ rinv r /\ rMeta r = save_meta w /\ rData r = body w /\
    rNodeCount r = nc /\ rFileSize r >= Z.of_nat (length (body w)) /\ rCont r = offset_of FieldContinentCode (mFields (wMeta w)).
Proof.
  intros HJ HL HFl Hsz.
  set (md := marshal (save_meta w)) in *.
  assert (Save marshal w = [] ++ IntToBinaryBE (Z.of_nat (length md)) 32 ++ (md ++ body w)) as Es by reflexivity.
  assert (exists r, newReaderFromBytes unmarshal (Save marshal w) = Ok r /\ rMeta r = save_meta w /\ rData r = body w /\
    rNodeCount r = nc /\ rFileSize r >= Z.of_nat (length (body w)) /\ rCont r = offset_of FieldContinentCode (mFields (wMeta w))) as [r [H1 H2]].
  2:{ exists r. split; [assumption|]. split; [eapply open_rinv; eassumption|]. assumption. }
  assert (length (Save marshal w) = 4 + length md + length (body w))%nat as Ls.
  { rewrite Es. cbn [app]. rewrite !app_length, IntToBinaryBE_len32. lia. }
  assert (slice (Save marshal w) 0 4 = Ok (IntToBinaryBE (Z.of_nat (length md)) 32)) as S1.
  { rewrite Es. apply slice_app; [reflexivity|]. rewrite IntToBinaryBE_len32. reflexivity. }
  assert (Save marshal w = IntToBinaryBE (Z.of_nat (length md)) 32 ++ md ++ body w) as Es2 by reflexivity.
  assert (zslice (Save marshal w) 4 (4 + Z.of_nat (length md)) = Ok md) as S2.
  { rewrite Es2. apply zslice_app; [rewrite IntToBinaryBE_len32|]; reflexivity. }
  assert (zslice (Save marshal w) (4 + Z.of_nat (length md)) (Z.of_nat (length (Save marshal w))) = Ok (body w)) as S3.
  { rewrite Ls. assert (Save marshal w = (IntToBinaryBE (Z.of_nat (length md)) 32 ++ md) ++ body w ++ []) as ->.
    { rewrite Es2, app_nil_r, <- app_assoc. reflexivity. }
    apply zslice_app; [rewrite app_length, IntToBinaryBE_len32|]; lia. }
  unfold newReaderFromBytes. rewrite S1. cbn [bind].
  rewrite IntToBinaryBE_val32 by lia.
  replace (Z.of_nat (length (Save marshal w)) <? 4 + Z.of_nat (length md)) with false by lia.
  rewrite S2. cbn [bind].
  rewrite HJ. cbn [save_meta mLanguages mFields mTotalSize mNodeCount].
  replace ((length (mLanguages (wMeta w)) =? 0)%nat || (length (mFields (wMeta w)) =? 0)%nat) with false.
  2:{ destruct (mLanguages (wMeta w)), (mFields (wMeta w)); try congruence; reflexivity. }
  replace (negb _) with false.
  2:{ symmetry. apply negb_false_iff, Z.eqb_eq. rewrite Ls. unfold body. rewrite app_length. lia. }
  rewrite S3. cbn [bind].
  fold nc.
  destruct (HasIPv4 (save_meta w)) eqn:E4.
  - rewrite v4walk_walk by lia. change (skipn 0 v4bits) with v4bits.
    rewrite (firstn_all2 v4bits) by (vm_compute; lia).
    destruct rwalk_v4_ok as [v4 [k0 [W [_ T]]]]. rewrite W. cbn [bind].
    destruct (initBitsCache_packed v4 T) as [c ->]. cbn [bind].
    eexists. split; [reflexivity|]. cbn [rMeta rData rNodeCount rFileSize rCont]. repeat split; try reflexivity. lia.
  - eexists. split; [reflexivity|]. cbn [rMeta rData rNodeCount rFileSize rCont]. repeat split; try reflexivity. lia.
Qed.

End Packed.

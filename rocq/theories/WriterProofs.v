(** The ipdb writer refines [store]. *)
From Verif Require Import Base NetIP IpNet Spec IpNetProofs SplitProofs IpNetProofs2 Ipdb SpecIpdb Bits.
From Verif Require Import TrieProofs.
From Coq Require Import Permutation.
Open Scope Z_scope.

Lemma block_eqb_spec b c : reflect (b = c) (block_eqb b c).
Proof.
  destruct b as [b1 b2], c as [c1 c2]. unfold block_eqb. cbn [base logsz].
  destruct (N.eqb_spec b1 c1), (N.eqb_spec b2 c2); cbn; constructor; congruence.
Qed.
Lemma in_blockb_iff b a : in_blockb b a = true <-> in_block b a.
Proof. unfold in_blockb, in_block. lia. Qed.

Definition sprefix {A} (p q : list A) : Prop := exists c r, q = p ++ c :: r.
Lemma sprefix_prefix {A} (p q : list A) : sprefix p q <-> pfx p q /\ (length p < length q)%nat.
Proof.
  split.
  - intros [c [r ->]]. split; [exists (c :: r); reflexivity|]. rewrite app_length. cbn. lia.
  - intros [[r ->] L]. destruct r as [|c r]; [rewrite app_nil_r in L; lia|]. exists c, r. reflexivity.
Qed.

Lemma strictly_inside_path b c : wfb b -> wfb c ->
  (strictly_inside b c = true <-> sprefix (path c) (path b)).
Proof.
  intros Hb Hc. unfold strictly_inside. rewrite sprefix_prefix, prefix_paths by assumption.
  rewrite andb_true_iff, in_blockb_iff, !path_length. destruct Hb as [_ [Hb _]], Hc as [_ [Hc _]].
  rewrite N.ltb_lt. split; [intros [H1 H2]; split; [split; [flia|assumption]|flia]|intros [[H1 H2] H3]; split; [flia|assumption]].
Qed.

(** The first bit string of a block is cut before its last bit. *)
Lemma path_split b ip : wfb b -> (logsz b < 128)%N -> length ip = 16%nat -> addr ip = base b ->
  let k := (127 - N.to_nat (logsz b))%nat in
  exists c r, skipn k (bits ip) = c :: r /\ path b = firstn k (bits ip) ++ [c].
Proof.
  intros [Ha [Hl Hb]] H128 L E k. rewrite (abits_ip ip L), E.
  destruct (skipn k (abits (base b))) as [|c r] eqn:Q.
  { apply (f_equal (@length _)) in Q. rewrite skipn_length in Q. unfold abits in Q. rewrite nbits_length in Q.
    cbn [length] in Q. lia. }
  exists c, r. split; [reflexivity|]. unfold path. replace (128 - N.to_nat (logsz b))%nat with (k + 1)%nat by lia.
  rewrite <- (firstn_skipn k (abits (base b))) at 1. rewrite Q.
  rewrite firstn_app. rewrite firstn_firstn, firstn_length. unfold abits at 2. rewrite nbits_length.
  replace (Nat.min (k + 1) k) with k by lia. replace (k + 1 - Nat.min k 128)%nat with 1%nat by lia. reflexivity.
Qed.

Lemma net_wfb n b : net_is n b -> aligned b -> wfb b.
Proof.
  intros [V M L Mv B] A. split; [assumption|].
  split; [destruct V as [V|V]; rewrite V in L; lia|]. rewrite B. apply addr_bound. assumption.
Qed.

(** Nodes on a network walks along the path of its block. *)
Lemma Nodes_walk nodes n b : net_is n b -> aligned b -> (logsz b < 128)%N ->
  exists p c, path b = p ++ [c] /\
  Nodes nodes (nIP n) (fst (mask_size (nMask n))) =
    (let* ' (nodes, node, bit, ok) := walk_bits p nodes 0 false in
     if ok then Ok (nodes, node, c, true) else Ok (nodes, node, bit, false)).
Proof.
  intros Hn Ha H128. pose proof (net_wfb n b Hn Ha) as W. pose proof (mask_size_net n b Hn) as Ms.
  pose proof (ni_len _ _ Hn) as V. pose proof (ni_logsz _ _ Hn) as Hl. pose proof (ni_base _ _ Hn) as Hb.
  destruct (path_split b (to16 (nIP n)) W H128 (to16_length _ V)) as [c [r [E1 E2]]].
  { rewrite to16_addr by assumption. congruence. }
  exists (firstn (127 - N.to_nat (logsz b)) (bits (to16 (nIP n)))), c. split; [assumption|].
  unfold Nodes. rewrite Ms. cbn [fst].
  assert ((if negb (is_nil (to4 (nIP n))) && (Z.of_nat (8 * length (nIP n) - N.to_nat (logsz b)) - 1 <? 32)
          then Z.of_nat (8 * length (nIP n) - N.to_nat (logsz b)) - 1 + 96
          else Z.of_nat (8 * length (nIP n) - N.to_nat (logsz b)) - 1) = Z.of_nat (127 - N.to_nat (logsz b))) as Em.
  { destruct V as [V|V]; rewrite V in *.
    - assert (is_nil (to4 (nIP n)) = false) as ->.
      { unfold to4. rewrite V. cbn [Nat.eqb]. destruct (nIP n); [discriminate|reflexivity]. }
      cbn [negb andb]. replace (_ <? 32) with true by lia. lia.
    - destruct (to4_spec (nIP n) (or_intror V)) as [T1 _].
      destruct (to4 (nIP n)) as [|t0 t] eqn:Et; cbn [is_nil negb andb]; [lia|].
      assert (to4 (nIP n) <> []) as Hne by (rewrite Et; discriminate).
      assert (t0 :: t <> []) as Hne2 by discriminate. apply T1 in Hne2.
      (* an aligned block at an IPv4 address has at most 32 host bits *)
      assert (logsz b <= 32)%N as L32.
      { destruct (N.le_gt_cases (logsz b) 32) as [Q|Q]; [assumption|exfalso].
        unfold aligned in Ha.
        assert (base b mod 2 ^ 33 = 0)%N as M by (apply (mod_pow_le (base b) 33 (logsz b)); [lia|assumption]).
        rewrite Hb in M. change (2 ^ 33)%N with 8589934592%N in M. change (2 ^ 32)%N with 4294967296%N in Hne2. lia. }
      replace (_ <? 32) with false by lia. lia. }
  rewrite Em. replace (Z.of_nat (127 - N.to_nat (logsz b)) <? 0) with false by lia. rewrite Nat2Z.id.
  assert ((if negb (is_nil (to4 (nIP n))) && (length (nIP n) =? 4)%nat then to16 (nIP n) else nIP n) = to16 (nIP n)) as ->.
  { destruct V as [V|V]; rewrite V.
    - assert (is_nil (to4 (nIP n)) = false) as ->.
      { unfold to4. rewrite V. cbn [Nat.eqb]. destruct (nIP n); [discriminate|reflexivity]. }
      reflexivity.
    - cbn [Nat.eqb]. rewrite andb_false_r. symmetry. apply to16_id. assumption. }
  rewrite nodes_loop_walk by (rewrite bits_length, to16_length by assumption; lia).
  cbn [skipn]. destruct (walk_bits _ nodes 0 false) as [[[[n1 n2] n3] ok]| | |]; cbn [bind]; try reflexivity.
  destruct ok; [|reflexivity]. rewrite (ip_bit_ok _ _ _ _ E1). reflexivity.
Qed.

(** A ::/0 row crashes the packer. *)
Lemma Nodes_zero nodes n b : net_is n b -> aligned b -> logsz b = 128%N ->
  Nodes nodes (nIP n) (fst (mask_size (nMask n))) = Panic.
Proof.
  intros Hn Ha H128. rewrite (mask_size_net n b Hn). cbn [fst]. unfold Nodes.
  pose proof (ni_len _ _ Hn) as V. pose proof (ni_logsz _ _ Hn) as Hl. rewrite H128 in *.
  destruct V as [V|V]; rewrite V in *; [exfalso; cbn in Hl; lia|].
  assert (base b = 0)%N as B0.
  { pose proof (net_wfb n b Hn Ha) as [A [_ B]]. unfold aligned in A. rewrite H128 in A.
    rewrite N.mod_small in A by assumption. assumption. }
  assert (is_nil (to4 (nIP n)) = true) as ->.
  { destruct (to4_spec (nIP n) (or_intror V)) as [T1 _]. destruct (to4 (nIP n)) as [|x y]; [reflexivity|exfalso].
    assert (x :: y <> []) as Hne by discriminate. apply T1 in Hne. rewrite <- (ni_base _ _ Hn), B0 in Hne. lia. }
  cbn [negb andb]. reflexivity.
Qed.

(* ---------- data chunk ---------- *)
(** The chunk holds the record s at offset off (offsets count the 8 bytes of the
    loopback node). *)
Definition chunk_at (chunk : bytes) (off : Z) (s : bytes) : Prop :=
  exists a c, chunk = a ++ be_enc 2 (N.of_nat (length s) mod 2 ^ 16) ++ s ++ c /\ off = Z.of_nat (length a) + 8.

Lemma IntToBinaryBE_16 n : IntToBinaryBE (Z.of_nat n) 16 = be_enc 2 (N.of_nat n mod 2 ^ 16).
Proof.
  unfold IntToBinaryBE. cbn [Z.eqb Pos.eqb]. f_equal.
  change (2 ^ 16) with 65536. change (2 ^ 16)%N with 65536%N. lia.
Qed.

(** A record in the data chunk: two length bytes and the text. *)
Definition enc_record (s : bytes) : bytes := be_enc 2 (N.of_nat (length s) mod 2 ^ 16) ++ s.

Record hinv (hash : list (bytes * Z)) (chunk : bytes) : Prop := {
  hi_at : forall s off, assoc s hash = Some off -> chunk_at chunk off s;
  hi_lt : forall s off, assoc s hash = Some off -> 8 <= off < Z.of_nat (length chunk) + 8;
  hi_inj : forall s1 s2 off, assoc s1 hash = Some off -> assoc s2 hash = Some off -> s1 = s2;
  hi_list : exists l, NoDup l /\ chunk = flat_map enc_record l /\ forall s, In s l <-> assoc s hash <> None }.

Lemma hinv_init : hinv [] [].
Proof.
  constructor; try (intros; discriminate). exists []. split; [constructor|]. split; [reflexivity|].
  intros s. cbn. split; [tauto|congruence].
Qed.

Lemma Fields_spec hash chunk values hash' chunk' off : hinv hash chunk ->
  Fields hash chunk values = (hash', chunk', off) ->
  hinv hash' chunk' /\ assoc (join x09 values) hash' = Some off /\ 8 <= off /\
  (forall s o, assoc s hash = Some o -> assoc s hash' = Some o) /\
  (forall s o, assoc s hash' = Some o -> assoc s hash = Some o \/ s = join x09 values /\ o = off) /\
  (exists c, chunk' = chunk ++ c).
Proof.
  intros H. unfold Fields. rewrite IntToBinaryBE_16. set (d := join x09 values).
  set (ln := be_enc 2 (N.of_nat (length d) mod 2 ^ 16)).
  assert (length ln = 2%nat) as Hln by apply be_enc_length.
  destruct (assoc d hash) as [o|] eqn:E; intros Q;
    apply pair_equal_spec in Q as [Q Q3]; apply pair_equal_spec in Q as [Q1 Q2]; rewrite <- Q1, <- Q2, <- Q3; clear Q1 Q2 Q3; clear hash' chunk' off.
  - split; [assumption|]. split; [assumption|]. pose proof (hi_lt _ _ H _ _ E). split; [lia|].
    split; [auto|]. split; [auto|]. exists []. symmetry. apply app_nil_r.
  - assert (forall s, assoc s ((d, Z.of_nat (length chunk) + 8) :: hash) =
              if bytes_eqb d s then Some (Z.of_nat (length chunk) + 8) else assoc s hash) as As by reflexivity.
    split; [constructor|].
    + intros s off. rewrite As. destruct (bytes_eqb_spec d s) as [<-|Ne].
      * intros Q; injection Q as <-. exists chunk, []. rewrite app_nil_r. auto.
      * intros Q. destruct (hi_at _ _ H _ _ Q) as [a [c [E1 E2]]].
        exists a, (c ++ ln ++ d). split; [|assumption].
        rewrite E1 at 1. rewrite <- !app_assoc. reflexivity.
    + intros s off. rewrite As. rewrite !app_length. rewrite Hln. destruct (bytes_eqb_spec d s) as [<-|Ne].
      * intros Q; injection Q as <-. lia.
      * intros Q. pose proof (hi_lt _ _ H _ _ Q). lia.
    + intros s1 s2 off. rewrite !As. destruct (bytes_eqb_spec d s1) as [<-|N1]; destruct (bytes_eqb_spec d s2) as [<-|N2].
      * auto.
      * intros Q1 Q2; injection Q1 as <-. pose proof (hi_lt _ _ H _ _ Q2). lia.
      * intros Q1 Q2; injection Q2 as <-. pose proof (hi_lt _ _ H _ _ Q1). lia.
      * apply (hi_inj _ _ H).
    + destruct (hi_list _ _ H) as [l [Nd [El Il]]]. exists (l ++ [d]). split; [|split].
      * assert (NoDup ([d] ++ l)) as Nd2 by (constructor; [rewrite Il; congruence|assumption]).
        eapply Permutation_NoDup; [apply Permutation_app_comm|exact Nd2].
      * rewrite flat_map_app, <- El. cbn [flat_map]. rewrite app_nil_r. reflexivity.
      * intros s. rewrite in_app_iff, As, Il. cbn [In]. destruct (bytes_eqb_spec d s) as [<-|Ne].
        -- split; [discriminate|auto].
        -- split; [intros [?|[?|[]]]; [assumption|contradiction]|auto].
    + rewrite !As, bytes_eqb_refl. split; [reflexivity|]. split; [lia|]. split; [|split].
      * intros s o. rewrite As. destruct (bytes_eqb_spec d s) as [<-|Ne]; congruence.
      * intros s o. rewrite As. destruct (bytes_eqb_spec d s) as [<-|Ne]; [|auto]. intros Q; injection Q as <-. auto.
      * eauto.
Qed.

(* ---------- the invariant ---------- *)
Record winv (w : Writer) (P : list path_t) (m : list (block * bytes)) : Prop := {
  wi_t : tinv (wNode w) P;
  wi_live : forall j p, nth_error P j = Some p -> (0 < j)%nat ->
              exists q off, stored (wNode w) q off /\ sprefix p q;
  wi_h : hinv (wHash w) (wChunk w);
  wi_in : forall b s, In (b, s) m -> wfb b /\
              exists off, stored (wNode w) (path b) off /\ assoc s (wHash w) = Some off;
  wi_st : forall q off, stored (wNode w) q off ->
              exists b s, In (b, s) m /\ q = path b /\ assoc s (wHash w) = Some off }.

Lemma winv_init meta langs : winv (NewWriter meta langs) [[]] [].
Proof.
  constructor; cbn.
  - apply tinv_init.
  - intros [|[|j]] p H L; [lia|discriminate..].
  - apply hinv_init.
  - intros b s [].
  - intros q off H. exfalso. exact (stored_init q off H).
Qed.

(** Overwriting one entry that is not a node link. *)
Lemma set_leaf nodes P i c p e off : tinv nodes P -> nth_error P i = Some p -> get nodes i c = Some e -> e <= 0 -> 0 < off ->
  exists nodes', nset nodes i c (- off) = Ok nodes' /\ tinv nodes' P /\
    (forall q o, stored nodes' q o <-> (q = p ++ [c] /\ o = off) \/ (q <> p ++ [c] /\ stored nodes q o)).
Proof.
  intros H Hi Hg He Ho.
  assert (i < length nodes)%nat as Li by (rewrite <- (ti_len _ _ H); apply nth_error_Some; congruence).
  destruct (nset_ok nodes i c (- off) Li) as [nodes' [E1 [E2 E3]]].
  exists nodes'. split; [assumption|].
  assert (forall j d e', 0 < e' -> (get nodes' j d = Some e' <-> get nodes j d = Some e')) as Pos.
  { intros j d e' Hp. rewrite E3. destruct ((i =? j)%nat && Bool.eqb c d) eqn:Q; [|tauto].
    apply andb_true_iff in Q as [Q1 Q2]. apply Nat.eqb_eq in Q1. apply Bool.eqb_prop in Q2. subst j d.
    rewrite Hg. split; intros X; injection X as X; lia. }
  assert (forall q j k, reach nodes' j q = Some k <-> reach nodes j q = Some k) as Rch.
  { intros q; induction q as [|d q IH]; intros j k; cbn [reach]; [tauto|].
    destruct (get nodes' j d) as [e1|] eqn:G1; destruct (get nodes j d) as [e2|] eqn:G2.
    - destruct (Z.ltb_spec 0 e1) as [L1|L1].
      + apply Pos in G1; [|assumption]. rewrite G1 in G2. injection G2 as <-. replace (0 <? e1) with true by lia. apply IH.
      + destruct (Z.ltb_spec 0 e2) as [L2|L2]; [|tauto]. apply Pos in G2; [|assumption]. rewrite G1 in G2. injection G2 as ->. lia.
    - destruct (Z.ltb_spec 0 e1) as [L1|L1]; [|tauto]. apply Pos in G1; [|assumption]. congruence.
    - destruct (Z.ltb_spec 0 e2) as [L2|L2]; [|tauto]. apply Pos in G2; [|assumption]. congruence.
    - tauto. }
  split.
  - constructor.
    + rewrite E2. apply (ti_len _ _ H).
    + apply (ti_root _ _ H).
    + intros j d e' pj G L Hj. apply Pos in G; [|assumption]. exact (ti_edge _ _ H _ _ _ _ G L Hj).
    + intros j pj Hj. apply Rch. apply (ti_reach _ _ H). assumption.
  - intros q o. split.
    + intros [pq [d [j [Eq [R [G L]]]]]]. apply Rch in R. rewrite E3 in G.
      destruct ((i =? j)%nat && Bool.eqb c d) eqn:Q.
      * apply andb_true_iff in Q as [Q1 Q2]. apply Nat.eqb_eq in Q1. apply Bool.eqb_prop in Q2. subst j d.
        left. injection G as G. pose proof (reach_root _ _ _ _ H R) as HP. rewrite Hi in HP. injection HP as <-.
        split; [assumption|lia].
      * right. split.
        -- intros ->. apply app_inj_tail in Eq as [<- <-]. rewrite (ti_reach _ _ H _ _ Hi) in R. injection R as <-.
           rewrite Nat.eqb_refl, Bool.eqb_reflx in Q. discriminate.
        -- exists pq, d, j. auto.
    + intros [[-> ->]|[Ne [pq [d [j [Eq [R [G L]]]]]]]].
      * exists p, c, i. split; [reflexivity|]. split; [apply Rch, (ti_reach _ _ H); assumption|].
        rewrite E3, Nat.eqb_refl, Bool.eqb_reflx. auto.
      * exists pq, d, j. split; [assumption|]. split; [apply Rch; assumption|]. split; [|assumption].
        rewrite E3. destruct ((i =? j)%nat && Bool.eqb c d) eqn:Q; [exfalso|assumption].
        apply andb_true_iff in Q as [Q1 Q2]. apply Nat.eqb_eq in Q1. apply Bool.eqb_prop in Q2. subst j d.
        pose proof (reach_root _ _ _ _ H R) as HP. rewrite Hi in HP. injection HP as <-. contradiction.
Qed.

Definition has_super {V} (m : list (block * V)) (b : block) : Prop := exists e, In e m /\ strictly_inside b (fst e) = true.
Definition has_sub {V} (m : list (block * V)) (b : block) : Prop := exists e, In e m /\ strictly_inside (fst e) b = true.

Lemma store_keep {V} (m : list (block * V)) b v : has_super m b \/ has_sub m b -> store m b v = m.
Proof.
  intros H. unfold store.
  assert (existsb (fun e => strictly_inside b (fst e) || strictly_inside (fst e) b) m = true) as ->; [|reflexivity].
  apply existsb_exists. destruct H as [[e [I E]]|[e [I E]]]; exists e; rewrite E; auto using orb_true_r.
Qed.
Lemma store_new {V} (m : list (block * V)) b v : ~ has_super m b -> ~ has_sub m b ->
  store m b v = (b, v) :: filter (fun e => negb (block_eqb (fst e) b)) m.
Proof.
  intros H1 H2. unfold store.
  destruct (existsb (fun e => strictly_inside b (fst e) || strictly_inside (fst e) b) m) eqn:E; [exfalso|reflexivity].
  apply existsb_exists in E as [e [I E]]. apply orb_true_iff in E as [E|E]; [apply H1|apply H2]; exists e; auto.
Qed.

(** The effect of one insert. *)
Lemma insert_spec w P m n b values cv : winv w P m -> net_is n b -> aligned b -> (logsz b < 128)%N ->
  conv_values (wCont w) values = Ok cv ->
  exists w' err P', insert w n values = Ok (w', err) /\
    winv w' P' (store m b (join x09 cv)) /\ wMeta w' = wMeta w /\ wCont w' = wCont w /\
    (err = Some ErrInvalidCIDR /\ has_super m b \/
     err = Some ErrCIDRConflict /\ has_sub m b \/
     err = None /\ ~ has_super m b /\ ~ has_sub m b) /\
    (err <> None -> w' = w).
Proof.
  intros [Ht Hlive Hh Hin Hst] Hn Ha H128 Hcv.
  pose proof (net_wfb n b Hn Ha) as W.
  destruct (Nodes_walk (wNode w) n b Hn Ha H128) as [p [c [Ep EN]]].
  unfold insert. destruct (mask_size (nMask n)) as [mask sz] eqn:Ms. cbn [fst] in EN. rewrite EN.
  destruct (walk_spec p (wNode w) P 0 [] false Ht (ti_root _ _ Ht)) as
    [n1 [node1 [bit1 [ok [P1 [E1 [T1 [X1 [S1 [A1 [B1 C1]]]]]]]]]]].
  rewrite E1. cbn [bind]. cbn [app] in *.
  destruct ok; cbn [bind negb wNode wMeta wHash wChunk wCont].
  - destruct (A1 eq_refl) as [A2 A3]. clear B1.
    rewrite nget_get. destruct (tinv_get_some n1 P1 node1 c p T1 A2) as [e E]. rewrite E. cbn [bind].
    destruct (Z.ltb_spec 0 e) as [L|L].
    + (* conflict *)
      assert (n1 = wNode w) as ->.
      { destruct A3 as [A3|A3]; [assumption|]. rewrite A3 in E. injection E as <-. lia. }
      assert (has_sub m b) as Sub.
      { pose proof (ti_edge _ _ T1 _ _ _ _ E L A2) as HP.
        pose proof (ti_reach _ _ T1 _ _ HP) as HR. pose proof (reach_root _ _ _ _ Ht HR) as HP2.
        destruct (Hlive _ _ HP2 ltac:(lia)) as [q [off [Sq Pq]]].
        destruct (Hst q off Sq) as [b' [s [I [Eq _]]]].
        exists (b', s). split; [assumption|]. cbn [fst]. apply strictly_inside_path; [apply (Hin b' s I)|assumption|].
        rewrite Ep, <- Eq. assumption. }
      exists w, (Some ErrCIDRConflict), P. split; [destruct w; reflexivity|].
      rewrite store_keep by auto. split; [constructor; assumption|]. split; [reflexivity|]. split; [reflexivity|].
      split; [auto|auto].
    + (* stored *)
      rewrite Hcv. cbn [bind].
      destruct (Fields (wHash w) (wChunk w) cv) as [[hash' chunk'] off] eqn:EF.
      destruct (Fields_spec _ _ _ _ _ _ Hh EF) as [F1 [F2 [F3 [F4 [F5 F6]]]]].
      destruct (set_leaf n1 P1 node1 c p e off T1 A2 E L ltac:(lia)) as [n2 [E2 [T2 S2]]].
      rewrite E2. cbn [bind].
      assert (forall q o, stored n2 q o <-> (q = path b /\ o = off) \/ (q <> path b /\ stored (wNode w) q o)) as S3.
      { intros q o. rewrite S2, Ep, S1. tauto. }
      assert (stored n2 (path b) off) as Sb by (apply S3; auto).
      assert (~ has_super m b /\ ~ has_sub m b) as [NS1 NS2].
      { split; intros [[b' s] [I E']]; cbn [fst] in E'; destruct (Hin b' s I) as [W' [o [So _]]];
        apply strictly_inside_path in E'; try assumption; apply sprefix_prefix in E' as [E' Lt].
        - assert (stored n2 (path b') o) as Q by (apply S3; right; split; [intros Q; rewrite Q in Lt; lia|assumption]).
          destruct (stored_prefix_free _ _ _ _ _ Q Sb E') as [Q2 _]. rewrite Q2 in Lt. lia.
        - assert (stored n2 (path b') o) as Q by (apply S3; right; split; [intros Q; rewrite Q in Lt; lia|assumption]).
          destruct (stored_prefix_free _ _ _ _ _ Sb Q E') as [Q2 _]. rewrite Q2 in Lt. lia. }
      exists (mkWriter (wMeta w) n2 hash' chunk' (wCont w)), None, P1.
      split; [reflexivity|]. rewrite store_new by assumption.
      split; [|split; [reflexivity|]; split; [reflexivity|]; split; [auto|congruence]].
      constructor; cbn [wNode wHash wChunk].
      * assumption.
      * intros j pj Hj Lj. destruct (C1 _ _ Hj) as [[j0 Hj0]|[Pj _]].
        -- (* an old node *)
           assert (0 < j0)%nat as Lj0.
           { destruct j0 as [|j0]; [|lia]. exfalso. rewrite (ti_root _ _ Ht) in Hj0. injection Hj0 as <-.
             pose proof (ti_reach _ _ T1 _ _ Hj) as R. cbn in R. injection R as R. lia. }
           destruct (Hlive _ _ Hj0 Lj0) as [q [o [So Pq]]].
           destruct (list_eq_dec bool_dec q (path b)) as [->|Ne]; [exists (path b), off; auto|].
           exists q, o. split; [apply S3; auto|assumption].
        -- exists (path b), off. split; [assumption|]. rewrite Ep. destruct Pj as [r ->].
           destruct r as [|d r]; [exists c, []; rewrite app_nil_r; reflexivity|].
           exists d, (r ++ [c]). rewrite <- app_assoc. reflexivity.
      * assumption.
      * intros b' s [Q|I].
        -- injection Q as <- <-. split; [assumption|]. eauto.
        -- apply filter_In in I as [I Ne]. cbn [fst] in Ne. destruct (Hin b' s I) as [W' [o [So As]]].
           split; [assumption|]. exists o. split; [|auto]. apply S3. right. split; [|assumption].
           intros Q. apply path_inj in Q; [|assumption..]. subst b'. destruct (block_eqb_spec b b); [discriminate|congruence].
      * intros q o Q. apply S3 in Q as [[-> ->]|[Ne So]].
        -- exists b, (join x09 cv). split; [left; reflexivity|]. auto.
        -- destruct (Hst q o So) as [b' [s [I [Eq As]]]]. exists b', s. split; [|auto].
           right. apply filter_In. split; [assumption|]. cbn [fst].
           destruct (block_eqb_spec b' b) as [->|]; [congruence|reflexivity].
  - (* a record sits on the way *)
    destruct (B1 eq_refl) as [-> [r [c' [off [Er Sr]]]]].
    assert (has_super m b) as Sup.
    { destruct (Hst r off Sr) as [b' [s [I [Eq _]]]]. exists (b', s). split; [assumption|]. cbn [fst].
      apply strictly_inside_path; [assumption|apply (Hin b' s I)|]. rewrite <- Eq, Ep, Er.
      rewrite <- app_assoc. destruct c' as [|d c']; [exists c, []; reflexivity|].
      exists d, (c' ++ [c]). reflexivity. }
    exists w, (Some ErrInvalidCIDR), P. split; [destruct w; reflexivity|].
    rewrite store_keep by auto. split; [constructor; assumption|]. auto 10.
Qed.

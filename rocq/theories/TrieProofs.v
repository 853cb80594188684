(** The node table of the ipdb writer: ghost paths, reachability, insertion. *)
From Verif Require Import Base NetIP Ipdb Bits.
Open Scope Z_scope.

Definition nodes_t := list (Z * Z).
Definition path_t := list bool.

(** nget as option *)
Definition get (nodes : nodes_t) (i : nat) (b : bool) : option Z :=
  match nth_error nodes i with Some p => Some (pair_get p b) | None => None end.

Lemma nget_get nodes i b : nget nodes i b = match get nodes i b with Some e => Ok e | None => Panic end.
Proof. unfold nget, get, idx. destruct (nth_error nodes i); reflexivity. Qed.

Lemma nset_ok nodes i b v : (i < length nodes)%nat ->
  exists nodes', nset nodes i b v = Ok nodes' /\ length nodes' = length nodes /\
    forall j c, get nodes' j c = if ((i =? j)%nat && Bool.eqb b c) then Some v else get nodes j c.
Proof.
  intros H. unfold nset, idx. destruct (nth_error nodes i) as [p|] eqn:E.
  2:{ apply nth_error_None in E. lia. }
  cbn [bind]. eexists. split; [reflexivity|]. split; [apply upd_length|].
  intros j c. unfold get. rewrite nth_error_upd.
  replace (i <? length nodes)%nat with true by lia. rewrite andb_true_r.
  destruct (Nat.eqb_spec i j) as [<-|N]; cbn [andb].
  - rewrite E. destruct p as [x y], b, c; reflexivity.
  - reflexivity.
Qed.

(** Follow a path through positive entries. *)
Fixpoint reach (nodes : nodes_t) (i : nat) (p : path_t) : option nat :=
  match p with
  | [] => Some i
  | b :: r => match get nodes i b with
              | Some e => if 0 <? e then reach nodes (Z.to_nat e) r else None
              | None => None
              end
  end.

Lemma reach_app nodes i p q : reach nodes i (p ++ q) =
  match reach nodes i p with Some j => reach nodes j q | None => None end.
Proof.
  revert i; induction p as [|b p IH]; intros i; cbn [app reach]; [reflexivity|].
  destruct (get nodes i b) as [e|]; [|reflexivity]. destruct (0 <? e); [apply IH|reflexivity].
Qed.

(** Invariant: P gives the path of every node. *)
Record tinv (nodes : nodes_t) (P : list path_t) : Prop := {
  ti_len : length P = length nodes;
  ti_root : nth_error P 0 = Some [];
  ti_edge : forall i b e p, get nodes i b = Some e -> 0 < e -> nth_error P i = Some p ->
              nth_error P (Z.to_nat e) = Some (p ++ [b]);
  ti_reach : forall j p, nth_error P j = Some p -> reach nodes 0 p = Some j }.

(** The stored records: path and offset. *)
Definition stored (nodes : nodes_t) (q : path_t) (off : Z) : Prop :=
  exists p b i, q = p ++ [b] /\ reach nodes 0 p = Some i /\ get nodes i b = Some (- off) /\ 0 < off.

Lemma tinv_get_some nodes P i b p : tinv nodes P -> nth_error P i = Some p -> exists e, get nodes i b = Some e.
Proof.
  intros H Hi. assert (i < length P)%nat as L by (apply nth_error_Some; congruence).
  rewrite (ti_len _ _ H) in L. unfold get.
  destruct (nth_error nodes i) eqn:E; [eauto|]. apply nth_error_None in E. lia.
Qed.

(** A node reached by a path has that path. *)
Lemma reach_path nodes P i p q j : tinv nodes P -> nth_error P i = Some p ->
  reach nodes i q = Some j -> nth_error P j = Some (p ++ q).
Proof.
  intros H. revert i p. induction q as [|b q IH]; cbn [reach]; intros i p Hi Hr.
  - injection Hr as <-. rewrite app_nil_r. assumption.
  - destruct (get nodes i b) as [e|] eqn:E; [|discriminate].
    destruct (Z.ltb_spec 0 e) as [L|L]; [|discriminate].
    pose proof (ti_edge _ _ H _ _ _ _ E L Hi) as Hp.
    rewrite (IH _ _ Hp Hr). rewrite <- app_assoc. reflexivity.
Qed.
Lemma reach_root nodes P q j : tinv nodes P -> reach nodes 0 q = Some j -> nth_error P j = Some q.
Proof. intros H. exact (reach_path nodes P 0 [] q j H (ti_root _ _ H)). Qed.

Lemma tinv_init : tinv [(0, 0)] [[]].
Proof.
  constructor.
  - reflexivity.
  - reflexivity.
  - intros i b e p H L Hi. destruct i as [|i]; cbn in *; [|destruct i; discriminate].
    destruct b; injection H as <-; lia.
  - intros [|j] p H; cbn in H; [injection H as <-; reflexivity|]. destruct j; discriminate.
Qed.
Lemma stored_init q off : ~ stored [(0, 0)] q off.
Proof.
  intros [p [b [i [E [R [G L]]]]]]. destruct p as [|c p].
  - cbn in R. injection R as <-. cbn in G. destruct b; injection G as G; lia.
  - cbn in R. destruct c; discriminate.
Qed.

(** Stored paths are pfx free. *)
Lemma stored_prefix_free nodes q1 q2 o1 o2 :
  stored nodes q1 o1 -> stored nodes q2 o2 -> pfx q1 q2 -> q1 = q2 /\ o1 = o2.
Proof.
  intros [p1 [b1 [i1 [E1 [R1 [G1 L1]]]]]] [p2 [b2 [i2 [E2 [R2 [G2 L2]]]]]] [r Hr].
  destruct r as [|c r] using rev_ind.
  - rewrite app_nil_r in Hr. split; [congruence|]. subst q1.
    rewrite E2 in Hr. apply app_inj_tail in Hr as [<- <-].
    rewrite R1 in R2. injection R2 as <-. rewrite G1 in G2. injection G2 as G2. lia.
  - exfalso. subst q1 q2. rewrite app_assoc in Hr. apply app_inj_tail in Hr as [-> _].
    rewrite <- app_assoc, reach_app, R1 in R2. cbn [app reach] in R2. rewrite G1 in R2.
    replace (0 <? - o1) with false in R2 by lia. discriminate.
Qed.

Lemma stored_fun nodes q o1 o2 : stored nodes q o1 -> stored nodes q o2 -> o1 = o2.
Proof. intros A B. exact (proj2 (stored_prefix_free nodes q q o1 o2 A B (prefix_refl q))). Qed.

(* ---------- one step of growing ---------- *)

(** Entries of [nodes] that are not zero keep their value in [nodes']. *)
Definition extends (nodes nodes' : nodes_t) : Prop :=
  (length nodes <= length nodes')%nat /\
  forall i b e, get nodes i b = Some e -> e <> 0 -> get nodes' i b = Some e.
Lemma extends_refl nodes : extends nodes nodes.
Proof. split; auto. Qed.
Lemma extends_trans a b c : extends a b -> extends b c -> extends a c.
Proof. intros [L1 H1] [L2 H2]. split; [lia|]. auto. Qed.
Lemma extends_reach nodes nodes' i p j : extends nodes nodes' -> reach nodes i p = Some j -> reach nodes' i p = Some j.
Proof.
  intros [_ H]. revert i; induction p as [|b p IH]; cbn [reach]; intros i R; [assumption|].
  destruct (get nodes i b) as [e|] eqn:E; [|discriminate].
  destruct (Z.ltb_spec 0 e) as [L|L]; [|discriminate].
  rewrite (H _ _ _ E) by lia. replace (0 <? e) with true by lia. auto.
Qed.
Lemma extends_stored nodes nodes' q off : extends nodes nodes' -> stored nodes q off -> stored nodes' q off.
Proof.
  intros X [p [b [i [E [R [G L]]]]]]. exists p, b, i. split; [assumption|].
  split; [eapply extends_reach; eassumption|]. split; [|assumption]. apply X; [assumption|lia].
Qed.

(** Adding a fresh node below an empty entry. *)
Lemma grow nodes P i b p : tinv nodes P -> nth_error P i = Some p -> get nodes i b = Some 0 ->
  exists nodes', nset (nodes ++ [(0, 0)]) i b (Z.of_nat (length nodes)) = Ok nodes' /\
    tinv nodes' (P ++ [p ++ [b]]) /\ extends nodes nodes' /\
    (forall q off, stored nodes' q off <-> stored nodes q off) /\
    get nodes' i b = Some (Z.of_nat (length nodes)) /\
    (forall c, get nodes' (length nodes) c = Some 0) /\ (0 < length nodes)%nat /\
    length nodes' = S (length nodes).
Proof.
  intros H Hi Hg.
  assert (i < length nodes)%nat as Li by (rewrite <- (ti_len _ _ H); apply nth_error_Some; congruence).
  destruct (nset_ok (nodes ++ [(0, 0)]) i b (Z.of_nat (length nodes))) as [nodes' [E1 [E2 E3]]].
  { rewrite app_length. lia. }
  rewrite app_length in E2. cbn [length] in E2.
  assert (forall j c, get (nodes ++ [(0, 0)]) j c = if (j =? length nodes)%nat then Some 0 else get nodes j c) as Ga.
  { intros j c. unfold get. destruct (Nat.lt_trichotomy j (length nodes)) as [L|[L|L]].
    - rewrite nth_error_app1 by assumption. replace (j =? length nodes)%nat with false by lia. reflexivity.
    - subst j. rewrite nth_error_app2, Nat.sub_diag, Nat.eqb_refl by lia. destruct c; reflexivity.
    - rewrite !(proj2 (nth_error_None _ _)) by (rewrite ?app_length; cbn; lia).
      replace (j =? length nodes)%nat with false by lia. reflexivity. }
  assert (extends nodes nodes') as X.
  { split; [lia|]. intros j c e Hj Hne. rewrite E3, Ga.
    destruct ((i =? j)%nat && Bool.eqb b c) eqn:Q.
    - apply andb_true_iff in Q as [Q1 Q2]. apply Nat.eqb_eq in Q1. apply Bool.eqb_prop in Q2. subst. congruence.
    - destruct (Nat.eqb_spec j (length nodes)) as [->|]; [|assumption].
      unfold get in Hj. rewrite (proj2 (nth_error_None nodes _)) in Hj by lia. discriminate. }
  assert (get nodes' i b = Some (Z.of_nat (length nodes))) as Gi.
  { rewrite E3, Nat.eqb_refl, Bool.eqb_reflx. reflexivity. }
  assert (forall c, get nodes' (length nodes) c = Some 0) as Gn.
  { intros c. rewrite E3, Ga, Nat.eqb_refl. replace (i =? length nodes)%nat with false by lia. reflexivity. }
  assert (tinv nodes' (P ++ [p ++ [b]])) as T'.
  { constructor.
    - rewrite app_length. cbn. rewrite (ti_len _ _ H). lia.
    - rewrite nth_error_app1; [apply (ti_root _ _ H)|]. rewrite (ti_len _ _ H). lia.
    - intros j c e pj Hj Lpos HPj. rewrite E3, Ga in Hj.
      destruct ((i =? j)%nat && Bool.eqb b c) eqn:Q.
      + apply andb_true_iff in Q as [Q1 Q2]. apply Nat.eqb_eq in Q1. apply Bool.eqb_prop in Q2. subst j c.
        injection Hj as <-. rewrite Nat2Z.id.
        rewrite nth_error_app2, (ti_len _ _ H), Nat.sub_diag by (rewrite (ti_len _ _ H); lia).
        rewrite nth_error_app1 in HPj by (rewrite (ti_len _ _ H); lia). rewrite HPj in Hi. injection Hi as ->. idtac. reflexivity.
      + destruct (Nat.eqb_spec j (length nodes)) as [->|Nj]; [injection Hj as <-; lia|].
        assert (j < length nodes)%nat as Lj.
        { unfold get in Hj. destruct (nth_error nodes j) eqn:Q2; [|discriminate]. apply nth_error_Some. congruence. }
        rewrite nth_error_app1 in HPj by (rewrite (ti_len _ _ H); lia).
        pose proof (ti_edge _ _ H _ _ _ _ Hj Lpos HPj) as Q2.
        rewrite nth_error_app1; [assumption|]. apply nth_error_Some. congruence.
    - intros j pj HPj. destruct (Nat.lt_ge_cases j (length P)) as [L|L].
      + rewrite nth_error_app1 in HPj by assumption. eapply extends_reach; [exact X|]. apply (ti_reach _ _ H). assumption.
      + rewrite nth_error_app2 in HPj by assumption.
        destruct (j - length P)%nat as [|k] eqn:Q; [|destruct k; discriminate].
        cbn in HPj. injection HPj as <-.
        rewrite reach_app, (extends_reach _ _ _ _ _ X (ti_reach _ _ H _ _ Hi)). cbn [reach]. rewrite Gi.
        assert (0 < length nodes)%nat by lia. replace (0 <? Z.of_nat (length nodes)) with true by lia.
        rewrite Nat2Z.id, <- (ti_len _ _ H). f_equal. lia. }
  exists nodes'. split; [assumption|]. split; [assumption|]. split; [assumption|].
  split; [|repeat split; auto; lia].
  intros q off. split; [|apply extends_stored; assumption].
  intros [pq [c [j [Eq [R [G Lo]]]]]].
  pose proof (reach_root _ _ _ _ T' R) as HP.
  rewrite E3, Ga in G.
  destruct ((i =? j)%nat && Bool.eqb b c) eqn:Q; [injection G as G; lia|].
  destruct (Nat.eqb_spec j (length nodes)) as [->|Nj]; [injection G as G; lia|].
  assert (j < length nodes)%nat as Lj.
  { unfold get in G. destruct (nth_error nodes j) eqn:Q2; [|discriminate]. apply nth_error_Some. congruence. }
  rewrite nth_error_app1 in HP by (rewrite (ti_len _ _ H); lia).
  exists pq, c, j. split; [assumption|]. split; [apply (ti_reach _ _ H); assumption|]. auto.
Qed.

(** nodes_loop over a bit list. *)
Fixpoint walk_bits (bs : path_t) (nodes : nodes_t) (node : nat) (bit : bool)
  : res (nodes_t * nat * bool * bool) :=
  match bs with
  | [] => Ok (nodes, node, bit, true)
  | b :: r =>
      let* e := nget nodes node b in
      let* nodes :=
        (if e =? 0
         then nset (nodes ++ [(0, 0)]) node b (Z.of_nat (length nodes))
         else Ok nodes) in
      let* e := nget nodes node b in
      if e <? 0 then Ok (nodes, node, b, false)
      else walk_bits r nodes (Z.to_nat e) b
  end.

Lemma skipn_S {A} i (l : list A) b r : skipn i l = b :: r -> skipn (S i) l = r.
Proof.
  revert l; induction i as [|i IH]; intros [|x l] H; cbn in *; try discriminate.
  - congruence.
  - apply IH. assumption.
Qed.

Lemma nodes_loop_walk cnt i ip nodes node bit : (i + cnt <= length (bits ip))%nat ->
  nodes_loop cnt i ip nodes node bit = walk_bits (firstn cnt (skipn i (bits ip))) nodes node bit.
Proof.
  revert i nodes node bit; induction cnt as [|cnt IH]; intros i nodes node bit H; [reflexivity|].
  cbn [nodes_loop].
  destruct (skipn i (bits ip)) as [|b r] eqn:E.
  { apply (f_equal (@length _)) in E. rewrite skipn_length in E. cbn in E. lia. }
  rewrite (ip_bit_ok _ _ _ _ E). cbn [bind firstn walk_bits].
  destruct (nget nodes node b) as [e| | |]; cbn [bind]; try reflexivity.
  destruct (if e =? 0 then _ else _) as [nodes'| | |]; cbn [bind]; try reflexivity.
  destruct (nget nodes' node b) as [e'| | |]; cbn [bind]; try reflexivity.
  destruct (e' <? 0); [reflexivity|]. rewrite IH by lia. rewrite (skipn_S _ _ _ _ E). reflexivity.
Qed.

(** The walk: either it hits a record on the way and changes nothing, or it ends
    at the node of the whole path, having created only empty nodes. *)
Lemma walk_spec bs : forall nodes P node p bit, tinv nodes P -> nth_error P node = Some p ->
  exists nodes' node' bit' ok P', walk_bits bs nodes node bit = Ok (nodes', node', bit', ok) /\
    tinv nodes' P' /\ extends nodes nodes' /\ (forall q off, stored nodes' q off <-> stored nodes q off) /\
    (ok = true -> nth_error P' node' = Some (p ++ bs) /\
                  (nodes' = nodes \/ forall c, get nodes' node' c = Some 0)) /\
    (ok = false -> nodes' = nodes /\
                  exists r c off, bs = r ++ c /\ stored nodes (p ++ r) off) /\
    (forall j pj, nth_error P' j = Some pj -> (exists j0, nth_error P j0 = Some pj) \/
                  (pfx pj (p ++ bs) /\ ok = true)).
Proof.
  induction bs as [|b bs IH]; intros nodes P node p bit H Hn; cbn [walk_bits].
  - exists nodes, node, bit, true, P. split; [reflexivity|]. split; [assumption|].
    split; [apply extends_refl|]. split; [tauto|]. split; [|split].
    + intros _. rewrite app_nil_r. auto.
    + discriminate.
    + eauto.
  - rewrite nget_get. destruct (tinv_get_some nodes P node b p H Hn) as [e E]. rewrite E. cbn [bind].
    destruct (Z.eqb_spec e 0) as [->|Ne].
    + destruct (grow nodes P node b p H Hn E) as [n1 [E1 [T1 [X1 [S1 [G1 [Z1 [L1 L2]]]]]]]].
      rewrite E1. cbn [bind]. rewrite nget_get, G1. cbn [bind].
      replace (Z.of_nat (length nodes) <? 0) with false by lia. rewrite Nat2Z.id.
      assert (nth_error (P ++ [p ++ [b]]) (length nodes) = Some (p ++ [b])) as Hn1.
      { rewrite nth_error_app2, (ti_len _ _ H), Nat.sub_diag by (rewrite (ti_len _ _ H); lia). reflexivity. }
      (* below a fresh node nothing is stored: the walk cannot fail *)
      destruct (IH n1 _ (length nodes) (p ++ [b]) b T1 Hn1) as
        [n2 [node2 [bit2 [ok [P2 [E2 [T2 [X2 [S2 [A2 [B2 C2]]]]]]]]]]].
      assert (ok = true) as Hok.
      { destruct ok; [reflexivity|exfalso]. destruct (B2 eq_refl) as [_ [r [c [off [Hr Hs]]]]].
        apply S1 in Hs. destruct Hs as [pq [cq [i [Eq [R [G Lo]]]]]].
        (* p ++ [b] ++ r = pq ++ [cq]; the old table stops at node,b *)
        destruct r as [|d r _] using rev_ind.
        - rewrite app_nil_r in Eq. apply app_inj_tail in Eq as [<- <-].
          rewrite (ti_reach _ _ H _ _ Hn) in R. injection R as <-. rewrite E in G. injection G as G. lia.
        - rewrite <- app_assoc in Eq. cbn [app] in Eq.
          rewrite (app_assoc p), (app_assoc _ r) in Eq || rewrite app_comm_cons, app_assoc in Eq.
          apply app_inj_tail in Eq as [<- _]. rewrite reach_app, (ti_reach _ _ H _ _ Hn) in R.
          cbn [reach] in R. rewrite E in R. cbn in R. discriminate. }
      subst ok.
      exists n2, node2, bit2, true, P2. split; [assumption|]. split; [assumption|].
      split; [eapply extends_trans; eassumption|].
      split; [intros q off; rewrite S2; apply S1|]. split; [|split].
      * intros _. destruct (A2 eq_refl) as [A3 A4]. split; [rewrite A3, <- app_assoc; reflexivity|].
        right. destruct A4 as [->|A4]; [|assumption].
        (* nothing grown later: node2 reached in n1 by bs from the fresh node *)
        destruct bs as [|b2 bs].
        -- cbn [walk_bits] in E2. injection E2 as <- _. assumption.
        -- exfalso. cbn [walk_bits] in E2. rewrite nget_get, Z1 in E2. cbn [bind Z.eqb] in E2.
           destruct (grow n1 _ (length nodes) b2 (p ++ [b]) T1 Hn1 (Z1 b2)) as [n3 [E3 [T3 [X3 [S3 [G3 [Z3 [L3 L4]]]]]]]].
           rewrite E3 in E2. cbn [bind] in E2. rewrite nget_get, G3 in E2. cbn [bind] in E2.
           replace (Z.of_nat (length n1) <? 0) with false in E2 by lia. rewrite Nat2Z.id in E2.
           assert (nth_error ((P ++ [p ++ [b]]) ++ [(p ++ [b]) ++ [b2]]) (length n1) = Some ((p ++ [b]) ++ [b2])) as Hn3.
           { rewrite nth_error_app2, (ti_len _ _ T1), Nat.sub_diag by (rewrite (ti_len _ _ T1); lia). reflexivity. }
           (* lengths: the walk only grows *)
           assert (forall bs nodes node bit nodes' node' bit' ok,
             walk_bits bs nodes node bit = Ok (nodes', node', bit', ok) -> (length nodes <= length nodes')%nat) as Mono.
           { clear. induction bs as [|b bs IH]; cbn [walk_bits]; intros nodes node bit nodes' node' bit' ok W.
             - injection W as <- _ _ _. lia.
             - destruct (nget nodes node b) as [e| | |]; cbn [bind] in W; try discriminate.
               destruct (if e =? 0 then _ else _) as [n1| | |] eqn:Q; cbn [bind] in W; try discriminate.
               assert (length nodes <= length n1)%nat as L.
               { destruct (e =? 0); [|injection Q as <-; lia]. unfold nset in Q.
                 destruct (idx _ _); cbn [bind] in Q; try discriminate. injection Q as <-.
                 rewrite upd_length, app_length. lia. }
               destruct (nget n1 node b) as [e'| | |]; cbn [bind] in W; try discriminate.
               destruct (e' <? 0); [injection W as <- _ _ _; assumption|]. apply IH in W. lia. }
           apply Mono in E2. lia.
      * discriminate.
      * intros j pj Hj. destruct (C2 _ _ Hj) as [[j0 Hj0]|[Hp _]].
        -- destruct (Nat.lt_ge_cases j0 (length P)) as [L|L].
           ++ rewrite nth_error_app1 in Hj0 by assumption. eauto.
           ++ rewrite nth_error_app2 in Hj0 by assumption.
              destruct (j0 - length P)%nat as [|k]; [|destruct k; discriminate].
              cbn in Hj0. injection Hj0 as <-. right. split; [|reflexivity].
              exists bs. rewrite <- app_assoc. reflexivity.
        -- right. split; [|reflexivity]. rewrite <- app_assoc in Hp. exact Hp.
    + cbn [bind]. rewrite nget_get, E. cbn [bind].
      destruct (Z.ltb_spec e 0) as [L|L].
      * exists nodes, node, b, false, P. split; [reflexivity|]. split; [assumption|].
        split; [apply extends_refl|]. split; [tauto|]. split; [discriminate|]. split; [|eauto].
        intros _. split; [reflexivity|]. exists [b], bs, (- e). split; [reflexivity|].
        exists p, b, node. split; [reflexivity|]. split; [apply (ti_reach _ _ H); assumption|].
        split; [rewrite E; f_equal; lia|lia].
      * pose proof (ti_edge _ _ H _ _ _ _ E ltac:(lia) Hn) as Hn1.
        destruct (IH nodes P (Z.to_nat e) (p ++ [b]) b H Hn1) as
          [n2 [node2 [bit2 [ok [P2 [E2 [T2 [X2 [S2 [A2 [B2 C2]]]]]]]]]]].
        exists n2, node2, bit2, ok, P2. split; [assumption|]. split; [assumption|]. split; [assumption|].
        split; [assumption|]. rewrite <- app_assoc in A2. cbn [app] in A2. split; [assumption|]. split.
        -- intros Hok. destruct (B2 Hok) as [Hsame [r [c [off [Hr Hs]]]]]. split; [assumption|].
           exists (b :: r), c, off. split; [cbn; congruence|]. rewrite <- app_assoc in Hs. exact Hs.
        -- intros j pj Hj. destruct (C2 _ _ Hj) as [?|[Hp ?]]; [eauto|]. right. rewrite <- app_assoc in Hp. auto.
Qed.

(** Proofs about opening an awdb file and about its network iterator (C36). *)
From Coq Require Import Sorting.Sorted.
From Verif Require Import Base NetIP IpNet Spec IpNetProofs SplitProofs IpNetProofs2 Ipdb Bits AwDecode SpecAw AwDecodeProofs AwTree SpecAwTree AwTreeProofs.
Open Scope N_scope.
Local Arguments N.of_nat : simpl never.

(** ** Opening *)
Lemma slice_len {A} (l : list A) lo hi r : slice l lo hi = Ok r -> length r = (hi - lo)%nat.
Proof.
  unfold slice. destruct (Nat.leb_spec lo hi), (Nat.leb_spec hi (length l)); cbn [andb]; try discriminate.
  intros [= <-]. rewrite firstn_length, skipn_length. lia.
Qed.
Lemma quarter n rs : record_size rs -> n * rs / 4 = n * (rs / 4).
Proof.
  intros [->|[->| ->]]; [change (24 / 4) with 6 | change (28 / 4) with 7 | change (32 / 4) with 8]; lia.
Qed.
Lemma FromBytes_reads data r : FromBytes data = Ok r -> aNodeCount (wMeta r) * aRecordSize (wMeta r) < 2 ^ 64 ->
  exists tbl, reads r tbl.
Proof.
  unfold FromBytes. destruct (length data <? 2000)%nat; [discriminate|].
  set (mi := skipn _ data). destruct (lastIndex mi marker) as [ms|]; [|discriminate].
  set (mb := skipn _ mi).
  destruct (decodeMeta mb _ _ _ _) as [m| | |]; try discriminate. cbn [bind].
  destruct (N.ltb_spec (N.of_nat (ms + (length data - 2000))) (u64 (aNodeCount m * aRecordSize m) / 4 + 16)); [discriminate|].
  destruct (slice data (N.to_nat (u64 (aNodeCount m * aRecordSize m) / 4 + 16)) _) as [dt| | |]; try discriminate. cbn [bind].
  destruct (slice data 0 (N.to_nat (u64 (aNodeCount m * aRecordSize m) / 4))) as [nd| | |] eqn:En; try discriminate. cbn [bind].
  destruct ((aRecordSize m =? 24) || (aRecordSize m =? 28) || (aRecordSize m =? 32)) eqn:Ers; [|discriminate].
  assert (Hrs : record_size (aRecordSize m)) by (unfold record_size; lia).
  apply slice_len in En. rewrite Nat.sub_0_r in En.
  assert (G : aNodeCount m * aRecordSize m < 2 ^ 64 ->
    exists tbl, N.of_nat (length tbl) = aNodeCount m /\ Forall (fits (aRecordSize m)) tbl /\ flat_map (node_bytes (aRecordSize m)) tbl = nd).
  { intros Hlt. unfold u64 in En. rewrite N.mod_small, quarter in En by assumption.
    destruct (table_of_bytes (aRecordSize m) (N.to_nat (aNodeCount m)) Hrs nd) as (tbl & T1 & T2 & T3); [rewrite En; lia|].
    exists tbl. split; [lia|auto]. }
  destruct (N.eqb_spec (aIPVersion m) 6) as [E6|E6].
  - destruct (v4_loop _ _ _ _ _ _) as [[node i]| | |] eqn:Ev; try discriminate. cbn [bind].
    intros [= <-]. cbn [wMeta]. intros Hlt. destruct (G Hlt) as (tbl & T1 & T2 & T3). exists tbl.
    subst nd. rewrite <- T1 in Ev.
    destruct (v4_ok (aRecordSize m) tbl Hrs T2 96 0 0) as (v & j & E & B & Rv & St); [lia|constructor|].
    rewrite E in Ev. injection Ev as -> ->.
    constructor; cbn [wMeta wNodes wV4Start wV4Depth]; auto; try congruence.
    intros _. split; [assumption|]. destruct St as [St|St]; [left; lia|]. destruct (Nat.eq_dec i 96); [left; assumption|]. right. split; [lia|assumption].
  - intros [= <-]. cbn [wMeta]. intros Hlt. destruct (G Hlt) as (tbl & T1 & T2 & T3). exists tbl.
    constructor; cbn [wMeta wNodes wV4Start wV4Depth]; auto; congruence.
Qed.
Lemma slice_eq {A} (l : list A) lo hi r : slice l lo hi = Ok r -> exists a b, l = a ++ r ++ b /\ length a = lo /\ length r = (hi - lo)%nat.
Proof.
  unfold slice. destruct (Nat.leb_spec lo hi), (Nat.leb_spec hi (length l)); cbn [andb]; try discriminate.
  intros [= <-]. exists (firstn lo l), (skipn (hi - lo) (skipn lo l)). rewrite !firstn_skipn, !firstn_length, skipn_length. repeat split; lia.
Qed.
Lemma FromBytes_layout data r : FromBytes data = Ok r -> exists sep rest, length sep = 16%nat /\ data = wNodes r ++ sep ++ wData r ++ rest.
Proof.
  unfold FromBytes. destruct (length data <? 2000)%nat; [discriminate|].
  set (mi := skipn _ data). destruct (lastIndex mi marker) as [ms|]; [|discriminate].
  set (mb := skipn _ mi).
  destruct (decodeMeta mb _ _ _ _) as [m| | |]; try discriminate. cbn [bind].
  set (sz := u64 (aNodeCount m * aRecordSize m) / 4).
  destruct (N.ltb_spec (N.of_nat (ms + (length data - 2000))) (sz + 16)); [discriminate|].
  destruct (slice data (N.to_nat (sz + 16)) _) as [dt| | |] eqn:Ed; try discriminate. cbn [bind].
  destruct (slice data 0 (N.to_nat sz)) as [nd| | |] eqn:En; try discriminate. cbn [bind].
  destruct (_ || _); [|discriminate].
  intros Hr. assert (wNodes r = nd /\ wData r = dt) as [-> ->].
  { destruct (aIPVersion m =? 6); [destruct (v4_loop _ _ _ _ _ _) as [[node i]| | |]; try discriminate; cbn [bind] in Hr|]; injection Hr as <-; auto. }
  apply slice_eq in En as (a & b & E1 & E2 & E3). apply slice_eq in Ed as (c & d & E4 & E5 & E6).
  destruct a; [|discriminate]. cbn [app] in E1. rewrite Nat.sub_0_r in E3.
  exists (skipn (length nd) c), d. split; [rewrite skipn_length; lia|].
  assert (P : firstn (length nd) c = nd).
  { assert (firstn (length nd) data = nd) by (rewrite E1, firstn_app, firstn_all, Nat.sub_diag; cbn; apply app_nil_r).
    rewrite <- H0 at 2. rewrite E4, firstn_app. replace (length nd - length c)%nat with 0%nat by lia. cbn [firstn]. now rewrite app_nil_r. }
  rewrite E4 at 1. rewrite <- (firstn_skipn (length nd) c), P at 1. now rewrite <- !app_assoc.
Qed.
Lemma FromBytes_tame data : (2000 <= length data)%nat ->
  (forall ms, lastIndex (skipn (length data - 2000) data) marker = Some ms ->
     let mb := skipn (ms + length marker) (skipn (length data - 2000) data) in
     forall m, decodeMeta mb (S (length mb)) (S (S (length mb))) max_depth 0 = Ok m -> aNodeCount m * aRecordSize m < 2 ^ 64) ->
  FromBytes data <> Panic.
Proof.
  intros L Hm. unfold FromBytes. destruct (Nat.ltb_spec (length data) 2000); [lia|].
  set (mi := skipn _ data) in *. destruct (lastIndex mi marker) as [ms|] eqn:El; [|discriminate].
  specialize (Hm ms eq_refl). cbv zeta in Hm. set (mb := skipn _ mi) in *.
  assert (T := decodeMeta_tame mb (S (length mb)) (S (S (length mb))) max_depth 0). unfold tame in T.
  destruct (decodeMeta mb _ _ _ _) as [m| | |] eqn:Em; try discriminate; [|congruence]. cbn [bind]. specialize (Hm m eq_refl).
  destruct (N.ltb_spec (N.of_nat (ms + (length data - 2000))) (u64 (aNodeCount m * aRecordSize m) / 4 + 16)) as [|Hge]; [discriminate|].
  assert (Hms : (ms <= length mi)%nat).
  { clear - El. revert ms El. induction mi as [|x mi IH]; intros ms El; cbn [lastIndex] in El.
    - destruct (is_prefix marker []); [|discriminate]. injection El as <-. lia.
    - destruct (lastIndex mi marker) as [i|]; [injection El as <-; specialize (IH i eq_refl); cbn; lia|].
      destruct (is_prefix marker (x :: mi)); [injection El as <-; lia|discriminate]. }
  assert (Lmi : length mi = 2000%nat) by (unfold mi; rewrite skipn_length; lia).
  destruct (slice data (N.to_nat (u64 (aNodeCount m * aRecordSize m) / 4 + 16)) _) as [dt| | |] eqn:Ed; try discriminate; cbn [bind].
  2:{ unfold slice in Ed. destruct (Nat.leb_spec (N.to_nat (u64 (aNodeCount m * aRecordSize m) / 4 + 16)) (ms + (length data - 2000))); [|lia].
      destruct (Nat.leb_spec (ms + (length data - 2000)) (length data)); [discriminate|lia]. }
  destruct (slice data 0 (N.to_nat (u64 (aNodeCount m * aRecordSize m) / 4))) as [nd| | |] eqn:En; try discriminate; cbn [bind].
  2:{ unfold slice in En. destruct (Nat.leb_spec 0 (N.to_nat (u64 (aNodeCount m * aRecordSize m) / 4))); [|lia].
      destruct (Nat.leb_spec (N.to_nat (u64 (aNodeCount m * aRecordSize m) / 4)) (length data)); [discriminate|lia]. }
  destruct ((aRecordSize m =? 24) || (aRecordSize m =? 28) || (aRecordSize m =? 32)) eqn:Ers; [|discriminate].
  assert (Hrs : record_size (aRecordSize m)) by (unfold record_size; lia).
  destruct (aIPVersion m =? 6); [|discriminate].
  apply slice_len in En. rewrite Nat.sub_0_r in En. unfold u64 in En. rewrite N.mod_small, quarter in En by assumption.
  destruct (table_of_bytes (aRecordSize m) (N.to_nat (aNodeCount m)) Hrs nd) as (tbl & T1 & T2 & <-); [rewrite En; lia|].
  replace (aNodeCount m) with (N.of_nat (length tbl)) by lia.
  destruct (v4_ok (aRecordSize m) tbl Hrs T2 96 0 0) as (v & j & E & B & Rv & St); [lia|constructor|].
  rewrite E. discriminate.
Qed.
Lemma retrieveData_tame r v : retrieveData r v <> Panic.
Proof.
  unfold retrieveData, resolveDataPointer. destruct (_ <=? _); [discriminate|]. cbn [bind].
  apply bind_tame; [apply decode_tame|]. intros [w o] _. discriminate.
Qed.
Lemma lookup_tame r tbl ip : reads r tbl -> LookupNetwork r ip <> Panic.
Proof.
  intros R. unfold LookupNetwork. apply bind_tame.
  - unfold lookupPointer. destruct (is_nil ip); [discriminate|].
    set (c := if is_nil (to4 ip) then ip else to4 ip). destruct (_ && _); [discriminate|].
    replace (length c * 8)%nat with (length (bits c)) by (rewrite bits_length; lia).
    assert (S' : (if (length (bits c) =? 32)%nat then wV4Start r else 0) = start r c).
    { unfold start. rewrite bits_length. destruct (Nat.eqb_spec (8 * length c) 32), (Nat.eqb_spec (length c) 4); try reflexivity; lia. }
    rewrite S'. assert (Sm := start_small r tbl R c). destruct R as [R1 R2 R3 R4 _ _].
    unfold traverseTree. rewrite R3, R4.
    destruct (traverse_ok (aRecordSize (wMeta r)) tbl R1 R2 c (start r c) (length (bits c)) 0 (start r c))
      as (v & j & -> & _); [assumption|lia|constructor|]. cbn [bind].
    destruct (v =? _); [discriminate|]. destruct (_ <? v); discriminate.
  - intros [[p j] c] _. destruct (p =? 0); [discriminate|].
    apply bind_tame; [apply retrieveData_tame|]. intros w _. discriminate.
Qed.

(** ** Bit strings as numbers *)
Fixpoint bval (l : list bool) : N := match l with [] => 0 | b :: r => N.b2n b * 2 ^ N.of_nat (length r) + bval r end.
Lemma bval_app a b : bval (a ++ b) = bval a * 2 ^ N.of_nat (length b) + bval b.
Proof.
  induction a as [|x a IH]; [cbn; lia|]. cbn [app bval]. rewrite IH, app_length, Nat2N.inj_add, N.pow_add_r. lia.
Qed.
Lemma bval_lt l : bval l < 2 ^ N.of_nat (length l).
Proof.
  induction l as [|b l IH]; [reflexivity|]. cbn [bval length]. rewrite Nat2N.inj_succ, N.pow_succ_r'. destruct b; cbn [N.b2n]; lia.
Qed.
Lemma bval_zeros n : bval (repeat false n) = 0.
Proof. induction n; [reflexivity|]. cbn [repeat bval]. rewrite IHn. cbn [N.b2n]. lia. Qed.
Lemma bval_nbits w v : v < 2 ^ N.of_nat w -> bval (nbits w v) = v.
Proof.
  intros H. apply (nbits_inj w); [|assumption|].
  - assert (B := bval_lt (nbits w v)). now rewrite nbits_length in B.
  - clear H. revert v. assert (G : forall w l, length l = w -> nbits w (bval l) = l).
    { clear w. induction w as [|w IH]; intros l L; [destruct l; [reflexivity|discriminate]|].
      destruct l as [|b l]; [discriminate|]. injection L as L. cbn [nbits bval]. rewrite L.
      assert (B := bval_lt l). rewrite L in B. f_equal.
      - rewrite N.testbit_eqb. rewrite N.div_add_l, (N.div_small (bval l)) by (assumption || apply N.pow_nonzero; discriminate).
        rewrite N.add_0_r. now destruct b.
      - rewrite <- (IH l L) at 2. apply nth_error_ext. intros i. destruct (Nat.lt_ge_cases i w) as [Hi|Hi].
        + rewrite !nbits_nth by assumption. f_equal.
          rewrite <- (N.mod_pow2_bits_low (N.b2n b * 2 ^ N.of_nat w + bval l) (N.of_nat w)) by lia.
          rewrite N.add_comm, N.mod_add, N.mod_small by (assumption || apply N.pow_nonzero; discriminate). reflexivity.
        + rewrite !(proj2 (nth_error_None _ _)) by (rewrite nbits_length; lia). reflexivity. }
    intros v. apply (G w). apply nbits_length.
Qed.
Lemma bval_bits l : bval (bits l) = val l.
Proof.
  rewrite bits_nbits. apply bval_nbits. assert (B := val_bound l).
  replace (N.of_nat (8 * length l)) with (8 * N.of_nat (length l)) by lia. assumption.
Qed.

(** ** Setting a bit *)
Lemma bits_nth l i : nth_error (bits l) i =
  match nth_error l (i / 8) with Some x => Some (N.testbit (b2n x) (N.of_nat (7 - i mod 8))) | None => None end.
Proof.
  assert (H := aw_bit_bits l i). unfold aw_bit, idx in H.
  destruct (nth_error l (i / 8)) as [x|]; cbn [bind] in H; destruct (nth_error (bits l) i); try discriminate; [|reflexivity].
  injection H as <-. f_equal. rewrite <- N.bit0_odd, N.shiftr_spec by lia. reflexivity.
Qed.
Lemma set_bit_bits ip k : (k < length (bits ip))%nat -> forall i,
  nth_error (bits (set_bit ip k)) i = if (i =? k)%nat then Some true else nth_error (bits ip) i.
Proof.
  intros Hk i. rewrite bits_length in Hk. unfold set_bit.
  destruct (nth_error ip (k / 8)) as [x|] eqn:Ex; [|apply nth_error_None in Ex; lia].
  rewrite !bits_nth, nth_error_upd.
  assert (Hx := b2n_lt x).
  assert (E : b2n (n2b (N.lor (b2n x) (2 ^ N.of_nat (7 - k mod 8)))) = N.lor (b2n x) (2 ^ N.of_nat (7 - k mod 8))).
  { rewrite b2n_n2b. apply N.bits_inj. intros m. destruct (N.lt_ge_cases m 8) as [L|L].
    - change 256 with (2 ^ 8). now rewrite N.mod_pow2_bits_low by assumption.
    - change 256 with (2 ^ 8). rewrite N.mod_pow2_bits_high by assumption. symmetry. rewrite N.lor_spec.
      rewrite N.pow2_bits_false by lia. rewrite orb_false_r.
      rewrite <- (N.mod_small (b2n x) (2 ^ 8)) by assumption. now rewrite N.mod_pow2_bits_high. }
  destruct (Nat.eqb_spec (k / 8) (i / 8)) as [E2|E2]; cbn [andb].
  - assert (Lk : (k / 8 < length ip)%nat) by lia.
    destruct (Nat.ltb_spec (k / 8) (length ip)); [|lia].
    rewrite <- E2, Ex, E, N.lor_spec, N.pow2_bits_eqb.
    destruct (Nat.eqb_spec i k) as [->|Ni].
    + rewrite N.eqb_refl, orb_true_r. reflexivity.
    + assert (N.of_nat (7 - k mod 8) =? N.of_nat (7 - i mod 8) = false) as ->; [|now rewrite orb_false_r].
      apply N.eqb_neq. intros X. apply Nat2N.inj in X. lia.
  - destruct (Nat.eqb_spec i k) as [->|_]; [now destruct E2|]. reflexivity.
Qed.
Lemma set_bit_app ip p q : bits ip = p ++ false :: q -> bits (set_bit ip (length p)) = p ++ true :: q.
Proof.
  intros E. apply nth_error_ext. intros i. rewrite set_bit_bits by (rewrite E, app_length; cbn; lia). rewrite E.
  destruct (Nat.eqb_spec i (length p)) as [->|Ni].
  - rewrite nth_error_app2, Nat.sub_diag by lia. reflexivity.
  - destruct (Nat.lt_ge_cases i (length p)) as [L|L].
    + now rewrite !nth_error_app1 by assumption.
    + rewrite !nth_error_app2 by assumption. destruct (i - length p)%nat eqn:X; [lia|reflexivity].
Qed.
Lemma set_bit_length ip k : length (set_bit ip k) = length ip.
Proof. unfold set_bit. destruct (nth_error ip (k / 8)); [apply upd_length|reflexivity]. Qed.

(** ** The iterator *)
Section Iter.
Variables (r : awReader) (tbl : list (N * N)).
Hypothesis R : reads r tbl.
Variable w : nat.                                  (* length of the addresses *)

Definition nc := N.of_nat (length tbl).
Definition left_ (n : N) := fst (nth (N.to_nat n) tbl (0, 0)).
Definition right_ (n : N) := snd (nth (N.to_nat n) tbl (0, 0)).
(** What remains to be listed below the node reached by p, with k address bits left. *)
Fixpoint den (k : nat) (p : list bool) (n : N) : list (list bool * N) * bool :=
  if n =? nc then ([], true)
  else if nc <? n then ([(p, n)], true)
  else match k with
       | O => ([], false)
       | S k' =>
           let '(l1, ok1) := den k' (p ++ [false]) (left_ n) in
           if ok1 then let '(l2, ok2) := den k' (p ++ [true]) (right_ n) in (l1 ++ l2, ok2)
           else (l1, false)
       end.
Definition is_nn (node : netNode) (pn : list bool * N) : Prop :=
  let '(p, n) := pn in
  length (nnIp node) = w /\ bits (nnIp node) = p ++ repeat false (8 * w - length p) /\
  nnBit node = length p /\ nnPtr node = n.

Definition NextEv (nodes : list netNode) (o : option (option (netNode * list netNode))) : Prop :=
  exists F, forall f, (F <= f)%nat -> Next f r nodes = Ok o.
Inductive runs : list netNode -> list netNode -> bool -> Prop :=
| runs_done nodes : NextEv nodes (Some None) -> runs nodes [] true
| runs_bad nodes : NextEv nodes None -> runs nodes [] false
| runs_step nodes n nodes' outs ok : NextEv nodes (Some (Some (n, nodes'))) -> runs nodes' outs ok -> runs nodes (n :: outs) ok.
Lemma runs_iterate nodes outs ok : runs nodes outs ok -> exists F, forall f, (F <= f)%nat -> iterate f r nodes = Ok (outs, ok).
Proof.
  induction 1 as [nodes [F H] | nodes [F H] | nodes n nodes' outs ok [F H] _ [G IH]].
  - exists (S F). intros [|f] Hf; [lia|]. cbn [iterate]. now rewrite H by lia.
  - exists (S F). intros [|f] Hf; [lia|]. cbn [iterate]. now rewrite H by lia.
  - exists (S (F + G)). intros [|f] Hf; [lia|]. cbn [iterate]. rewrite H by lia. cbn [bind]. rewrite IH by lia. reflexivity.
Qed.
Lemma runs_cong nodes nodes' : (forall o, NextEv nodes o -> NextEv nodes' o) -> forall outs ok, runs nodes outs ok -> runs nodes' outs ok.
Proof. intros H outs ok Hr. destruct Hr; [apply runs_done | apply runs_bad | eapply runs_step]; eauto. Qed.

Lemma step_empty node rest : nnPtr node = nc -> forall o, NextEv rest o -> NextEv (node :: rest) o.
Proof.
  intros E o [F H]. exists (S F). intros [|f] Hf; [lia|]. cbn [Next descend].
  rewrite (rd_count _ _ R). fold nc. rewrite E, N.eqb_refl. cbn [bind]. apply H. lia.
Qed.
Lemma step_found node rest : nc < nnPtr node -> NextEv (node :: rest) (Some (Some (node, rest))).
Proof.
  intros E. exists 1%nat. intros [|f] Hf; [lia|]. cbn [Next descend]. rewrite (rd_count _ _ R). fold nc.
  destruct (N.eqb_spec (nnPtr node) nc); [lia|]. destruct (N.ltb_spec nc (nnPtr node)); [reflexivity|lia].
Qed.
Lemma step_bad node rest : nnPtr node < nc -> (8 * length (nnIp node) <= nnBit node)%nat -> NextEv (node :: rest) None.
Proof.
  intros E B. exists 1%nat. intros [|f] Hf; [lia|]. cbn [Next descend]. rewrite (rd_count _ _ R). fold nc.
  destruct (N.eqb_spec (nnPtr node) nc); [lia|]. destruct (N.ltb_spec nc (nnPtr node)); [lia|].
  destruct (Nat.leb_spec (length (nnIp node)) (nnBit node / 8)); [reflexivity|lia].
Qed.
Lemma step_inner node rest : nnPtr node < nc -> nnPtr node < 2 ^ 32 -> (nnBit node < 8 * length (nnIp node))%nat -> forall o,
  NextEv (mkNN (nnIp node) (S (nnBit node)) (left_ (nnPtr node)) ::
          mkNN (set_bit (nnIp node) (nnBit node)) (S (nnBit node)) (right_ (nnPtr node)) :: rest) o -> NextEv (node :: rest) o.
Proof.
  intros E Sm B o [F H]. exists F. intros f Hf. rewrite <- (H f Hf). destruct f as [|f]; [reflexivity|].
  cbn [Next nnIp nnBit].
  replace (8 * length (nnIp node) - nnBit node)%nat with (S (8 * length (nnIp node) - S (nnBit node))) by lia.
  set (K := S (8 * length (nnIp node) - S (nnBit node))).
  assert (D : descend (S K) r node rest = descend K r (mkNN (nnIp node) (S (nnBit node)) (left_ (nnPtr node)))
     (mkNN (set_bit (nnIp node) (nnBit node)) (S (nnBit node)) (right_ (nnPtr node)) :: rest)).
  { cbn [descend]. rewrite (rd_count _ _ R). fold nc.
    destruct (N.eqb_spec (nnPtr node) nc); [lia|]. destruct (N.ltb_spec nc (nnPtr node)); [lia|].
    destruct (Nat.leb_spec (length (nnIp node)) (nnBit node / 8)); [lia|].
    destruct R as [R1 R2 R3 R4 _ _]. rewrite R3.
    destruct (read_inner (aRecordSize (wMeta r)) tbl R1 R2 (nnPtr node) true E Sm) as (lr & E1 & ->).
    destruct (read_inner (aRecordSize (wMeta r)) tbl R1 R2 (nnPtr node) false E Sm) as (lr' & E1' & ->).
    cbn [bind]. unfold left_, right_. rewrite (nth_error_nth _ _ (0, 0) E1).
    rewrite E1 in E1'. injection E1' as <-. reflexivity. }
  rewrite D. reflexivity.
Qed.

Lemma left_right_small n : n < nc -> left_ n < 2 ^ 32 /\ right_ n < 2 ^ 32.
Proof.
  intros Hn. destruct R as [R1 R2 _ _ _ _]. unfold left_, right_.
  destruct (nth_error tbl (N.to_nat n)) as [lr|] eqn:E; [|apply nth_error_None in E; unfold nc in Hn; lia].
  rewrite (nth_error_nth _ _ (0, 0) E).
  split; [exact (entry_small (aRecordSize (wMeta r)) tbl R1 R2 _ lr false E) | exact (entry_small (aRecordSize (wMeta r)) tbl R1 R2 _ lr true E)].
Qed.
Lemma run_den k : forall p n node rest outs ok, is_nn node (p, n) -> (length p + k = 8 * w)%nat -> n < 2 ^ 32 ->
  runs rest outs ok ->
  exists outs', Forall2 is_nn outs' (fst (den k p n)) /\
    runs (node :: rest) (if snd (den k p n) then outs' ++ outs else outs') (if snd (den k p n) then ok else false).
Proof.
  induction k; intros p n node rest outs ok (N1 & N2 & N3 & N4) L Sm Hr; cbn [den].
  - destruct (N.eqb_spec n nc) as [E|E].
    { exists []. split; [constructor|]. cbn [fst snd app]. revert Hr. apply runs_cong. apply step_empty. congruence. }
    destruct (N.ltb_spec nc n) as [E2|E2].
    { exists [node]. split; [constructor; [repeat split; auto|constructor]|]. cbn [fst snd app].
      eapply runs_step; [|exact Hr]. apply step_found. lia. }
    exists []. split; [constructor|]. cbn [fst snd]. apply runs_bad. apply step_bad; [lia|rewrite N1; lia].
  - destruct (N.eqb_spec n nc) as [E|E].
    { exists []. split; [constructor|]. cbn [fst snd app]. revert Hr. apply runs_cong. apply step_empty. congruence. }
    destruct (N.ltb_spec nc n) as [E2|E2].
    { exists [node]. split; [constructor; [repeat split; auto|constructor]|]. cbn [fst snd app].
      eapply runs_step; [|exact Hr]. apply step_found. lia. }
    assert (Hn : n < nc) by lia. destruct (left_right_small n Hn) as [S1 S2].
    assert (Eb : bits (nnIp node) = p ++ false :: repeat false k).
    { rewrite N2. replace (8 * w - length p)%nat with (S k) by lia. reflexivity. }
    set (nl := mkNN (nnIp node) (S (nnBit node)) (left_ (nnPtr node))).
    set (nr := mkNN (set_bit (nnIp node) (nnBit node)) (S (nnBit node)) (right_ (nnPtr node))).
    assert (Il : is_nn nl (p ++ [false], left_ n)).
    { unfold is_nn, nl. cbn [nnIp nnBit nnPtr]. rewrite app_length. cbn [length]. repeat split; try lia; try congruence.
      rewrite Eb, <- app_assoc. cbn [app]. replace (8 * w - (length p + 1))%nat with k by lia. reflexivity. }
    assert (Ir : is_nn nr (p ++ [true], right_ n)).
    { unfold is_nn, nr. cbn [nnIp nnBit nnPtr]. rewrite app_length, set_bit_length. cbn [length]. repeat split; try lia; try congruence.
      rewrite N3, (set_bit_app _ _ _ Eb), <- app_assoc. cbn [app]. replace (8 * w - (length p + 1))%nat with k by lia. reflexivity. }
    destruct (IHk (p ++ [true]) (right_ n) nr rest outs ok Ir) as (o2 & F2 & R2); [rewrite app_length; cbn; lia|assumption|assumption|].
    match type of R2 with runs _ ?o ?k0 =>
      destruct (IHk (p ++ [false]) (left_ n) nl (nr :: rest) o k0 Il) as (o1 & F1 & R1); [rewrite app_length; cbn; lia|assumption|exact R2|] end.
    assert (St : forall o, NextEv (nl :: nr :: rest) o -> NextEv (node :: rest) o).
    { apply step_inner; [lia|lia|rewrite N1; lia]. }
    apply (runs_cong _ _ St) in R1. clear IHk R2.
    destruct (den k (p ++ [false]) (left_ n)) as [l1 ok1]. destruct ok1; cbn [fst snd] in *.
    + destruct (den k (p ++ [true]) (right_ n)) as [l2 ok2]. cbn [fst snd] in *.
      exists (o1 ++ o2). split; [now apply Forall2_app|].
      destruct ok2; [now rewrite <- app_assoc|assumption].
    + exists o1. split; assumption.
Qed.

(** ** What is listed *)
Lemma step_left p n : reach tbl 0 p n -> n < nc -> reach tbl 0 (p ++ [false]) (left_ n) /\ reach tbl 0 (p ++ [true]) (right_ n).
Proof.
  intros Hr Hn. unfold left_, right_.
  destruct (nth_error tbl (N.to_nat n)) as [lr|] eqn:E; [|apply nth_error_None in E; unfold nc in Hn; lia].
  rewrite (nth_error_nth _ _ (0, 0) E). split.
  - exact (reach_step tbl 0 p n lr false Hr E).
  - exact (reach_step tbl 0 p n lr true Hr E).
Qed.
Lemma den_sound k : forall p n, reach tbl 0 p n -> forall q v, In (q, v) (fst (den k p n)) ->
  reach tbl 0 q v /\ nc < v /\ (exists t, q = p ++ t) /\ (length q <= length p + k)%nat.
Proof.
  induction k; intros p n Hr q v; cbn [den]; destruct (N.eqb_spec n nc); cbn [fst]; try contradiction.
  - destruct (N.ltb_spec nc n); cbn [fst]; [|contradiction]. intros [[= <- <-]|[]].
    repeat split; auto; [exists []; now rewrite app_nil_r|lia].
  - destruct (N.ltb_spec nc n); cbn [fst].
    { intros [[= <- <-]|[]]. repeat split; auto; [exists []; now rewrite app_nil_r|lia]. }
    destruct (step_left p n Hr ltac:(lia)) as [Hl Hr'].
    assert (I1 := IHk _ _ Hl q v). assert (I2 := IHk _ _ Hr' q v).
    destruct (den k (p ++ [false]) (left_ n)) as [l1 ok1]. destruct (den k (p ++ [true]) (right_ n)) as [l2 ok2].
    cbn [fst] in *. rewrite app_length in *. cbn [length] in *.
    assert (G : In (q, v) l1 \/ In (q, v) l2 -> reach tbl 0 q v /\ nc < v /\ (exists t, q = p ++ t) /\ (length q <= length p + S k)%nat).
    { intros [H0|H0]; [destruct (I1 H0) as (A & B & [t C] & D)|destruct (I2 H0) as (A & B & [t C] & D)];
        (repeat split; auto; [rewrite C, <- app_assoc; eauto|lia]). }
    destruct ok1; cbn [fst]; [intros Hi; apply G; now apply in_app_iff|intros Hi; apply G; now left].
Qed.
Lemma den_complete k : forall p n, reach tbl 0 p n -> snd (den k p n) = true ->
  (forall t v, reach tbl 0 (p ++ t) v -> nc < v -> In (p ++ t, v) (fst (den k p n))) /\
  (forall t v, reach tbl 0 (p ++ t) v -> v < nc -> (length t < k)%nat).
Proof.
  assert (Leaf : forall p n, reach tbl 0 p n -> nc <= n -> forall t v, reach tbl 0 (p ++ t) v -> t = [] /\ v = n).
  { intros p n Hr Hn t v Ht. apply (reach_stop tbl 0 p n t v Hr); [unfold inner; fold nc; lia|assumption]. }
  induction k; intros p n Hr; cbn [den]; destruct (N.eqb_spec n nc) as [E|E]; cbn [fst snd].
  - intros _. split; intros t v Ht Hv; destruct (Leaf p n Hr ltac:(lia) t v Ht) as [-> ->]; lia.
  - destruct (N.ltb_spec nc n); cbn [fst snd]; [|discriminate]. intros _.
    split; intros t v Ht Hv; destruct (Leaf p n Hr ltac:(lia) t v Ht) as [-> ->]; [left; now rewrite app_nil_r|lia].
  - intros _. split; intros t v Ht Hv; destruct (Leaf p n Hr ltac:(lia) t v Ht) as [-> ->]; lia.
  - destruct (N.ltb_spec nc n) as [E2|E2]; cbn [fst snd].
    { intros _. split; intros t v Ht Hv; destruct (Leaf p n Hr ltac:(lia) t v Ht) as [-> ->]; [left; now rewrite app_nil_r|lia]. }
    destruct (step_left p n Hr ltac:(lia)) as [Hl Hr'].
    assert (I1 := IHk _ _ Hl). assert (I2 := IHk _ _ Hr').
    destruct (den k (p ++ [false]) (left_ n)) as [l1 ok1]. destruct (den k (p ++ [true]) (right_ n)) as [l2 ok2]. cbn [fst snd] in *.
    destruct ok1; cbn [fst snd]; [|discriminate]. intros ->. specialize (I1 eq_refl) as [C1 D1]. specialize (I2 eq_refl) as [C2 D2].
    split.
    + intros [|b t] v Ht Hv.
      * rewrite app_nil_r in *. rewrite (reach_fun _ _ _ _ _ Ht Hr) in Hv. lia.
      * replace (p ++ b :: t) with ((p ++ [b]) ++ t) in * by now rewrite <- app_assoc.
        apply in_app_iff. destruct b; [right; auto|left; auto].
    + intros [|b t] v Ht Hv; [cbn; lia|].
      replace (p ++ b :: t) with ((p ++ [b]) ++ t) in * by now rewrite <- app_assoc.
      cbn [length]. destruct b; [specialize (D2 t v Ht Hv)|specialize (D1 t v Ht Hv)]; lia.
Qed.
Lemma den_bad k : forall p n, reach tbl 0 p n -> snd (den k p n) = false ->
  exists t v, reach tbl 0 (p ++ t) v /\ v < nc /\ length t = k.
Proof.
  induction k; intros p n Hr; cbn [den]; destruct (N.eqb_spec n nc) as [E|E]; cbn [snd]; try discriminate.
  - destruct (N.ltb_spec nc n); cbn [snd]; [discriminate|]. intros _. exists [], n. rewrite app_nil_r. repeat split; auto. lia.
  - destruct (N.ltb_spec nc n) as [E2|E2]; cbn [snd]; [discriminate|].
    destruct (step_left p n Hr ltac:(lia)) as [Hl Hr'].
    assert (I1 := IHk _ _ Hl). assert (I2 := IHk _ _ Hr').
    destruct (den k (p ++ [false]) (left_ n)) as [l1 ok1]. destruct (den k (p ++ [true]) (right_ n)) as [l2 ok2]. cbn [fst snd] in *.
    destruct ok1; cbn [snd].
    + intros ->. destruct (I2 eq_refl) as (t & v & A & B & C). exists (true :: t), v. rewrite <- app_assoc in A. cbn in *. auto.
    + intros _. destruct (I1 eq_refl) as (t & v & A & B & C). exists (false :: t), v. rewrite <- app_assoc in A. cbn in *. auto.
Qed.
Definition before (q1 q2 : list bool) : Prop := exists c a b, q1 = c ++ false :: a /\ q2 = c ++ true :: b.
Lemma den_sorted k : forall p n, reach tbl 0 p n -> StronglySorted (fun x y => before (fst x) (fst y)) (fst (den k p n)).
Proof.
  induction k; intros p n Hr; cbn [den]; destruct (N.eqb_spec n nc); cbn [fst]; try constructor.
  - destruct (N.ltb_spec nc n); cbn [fst]; repeat constructor.
  - destruct (N.ltb_spec nc n); cbn [fst]; [repeat constructor|].
    destruct (step_left p n Hr ltac:(lia)) as [Hl Hr'].
    assert (I1 := IHk _ _ Hl). assert (I2 := IHk _ _ Hr').
    assert (S1 := den_sound k _ _ Hl). assert (S2 := den_sound k _ _ Hr').
    destruct (den k (p ++ [false]) (left_ n)) as [l1 ok1]. destruct (den k (p ++ [true]) (right_ n)) as [l2 ok2]. cbn [fst] in *.
    destruct ok1; cbn [fst]; [|assumption].
    assert (B : forall x y, In x l1 -> In y l2 -> before (fst x) (fst y)).
    { intros [q1 v1] [q2 v2] H1 H2. destruct (S1 _ _ H1) as (_ & _ & [t1 ->] & _). destruct (S2 _ _ H2) as (_ & _ & [t2 ->] & _).
      exists p, t1, t2. cbn [fst]. now rewrite <- !app_assoc. }
    clear S1 S2 IHk. induction l1 as [|x l1 IH]; [assumption|]. cbn [app]. inversion I1; subst. constructor.
    + apply IH; [assumption|]. intros; apply B; [now right|assumption].
    + apply Forall_app. split; [assumption|]. apply Forall_forall. intros y Hy. apply B; [now left|assumption].
Qed.
Lemma before_val n1 n2 q1 v1 q2 v2 : is_nn n1 (q1, v1) -> is_nn n2 (q2, v2) ->
  (length q1 <= 8 * w)%nat -> (length q2 <= 8 * w)%nat -> before q1 q2 -> nn_after n1 <= nn_first n2.
Proof.
  intros (A1 & A2 & A3 & A4) (B1 & B2 & B3 & B4) L1 L2 (c & a & b & E1 & E2).
  unfold nn_after, nn_first. rewrite <- !bval_bits, A2, B2, A1, A3.
  rewrite !bval_app, !bval_zeros, !N.add_0_r, !repeat_length.
  rewrite E1, E2 in *. rewrite !bval_app. cbn [bval N.b2n]. rewrite !app_length in *. cbn [length] in *.
  set (m1 := (8 * w - (length c + S (length a)))%nat) in *. set (m2 := (8 * w - (length c + S (length b)))%nat).
  assert (M : (length a + m1 = length b + m2)%nat) by (unfold m1, m2; lia).
  assert (Ha := bval_lt a).
  assert (X : 2 ^ N.of_nat (length a) * 2 ^ N.of_nat m1 = 2 ^ N.of_nat (length b) * 2 ^ N.of_nat m2).
  { rewrite <- !N.pow_add_r. f_equal. lia. }
  rewrite !Nat2N.inj_succ, !N.pow_succ_r'.
  set (PA := 2 ^ N.of_nat (length a)) in *. set (PB := 2 ^ N.of_nat (length b)) in *.
  set (M1 := 2 ^ N.of_nat m1) in *. set (M2 := 2 ^ N.of_nat m2) in *.
  set (VC := bval c). set (VA := bval a) in *. set (VB := bval b). clearbody PA PB M1 M2 VC VA VB.
  assert (VA * M1 + M1 <= PA * M1) by nia.
  replace ((VC * (2 * PA) + (0 * PA + VA)) * M1 + M1) with (2 * VC * (PA * M1) + (VA * M1 + M1)) by ring.
  replace ((VC * (2 * PB) + (1 * PB + VB)) * M2) with (2 * VC * (PB * M2) + PB * M2 + VB * M2) by ring.
  rewrite <- X. set (Q := PA * M1) in *. nia.
Qed.
Lemma is_nn_bits node q v : is_nn node (q, v) -> net_bits node = q.
Proof.
  intros (A & B & C & D). unfold net_bits. rewrite B, C, firstn_app, firstn_all, Nat.sub_diag. cbn. apply app_nil_r.
Qed.
Lemma is_nn_aligned node q v : is_nn node (q, v) -> (length q <= 8 * w)%nat ->
  nn_first node mod 2 ^ N.of_nat (8 * length (nnIp node) - nnBit node) = 0.
Proof.
  intros (A & B & C & D) L. unfold nn_first. rewrite <- bval_bits, B, bval_app, bval_zeros, repeat_length, A, C, N.add_0_r.
  apply N.mod_mul, N.pow_nonzero. discriminate.
Qed.

Lemma iterate_spec node p0 n0 : is_nn node (p0, n0) -> reach tbl 0 p0 n0 -> (length p0 <= 8 * w)%nat -> exists outs ok,
  (exists F, forall f, (F <= f)%nat -> iterate f r [node] = Ok (outs, ok)) /\
  StronglySorted (fun a b => nn_after a <= nn_first b) outs /\
  (forall n, In n outs -> length (nnIp n) = w /\ (nnBit n <= 8 * w)%nat /\
     nn_first n mod 2 ^ N.of_nat (8 * length (nnIp n) - nnBit n) = 0 /\
     reach tbl 0 (net_bits n) (nnPtr n) /\ data_at tbl (nnPtr n) /\ exists t, net_bits n = p0 ++ t) /\
  (ok = true -> forall t v, reach tbl 0 (p0 ++ t) v -> data_at tbl v -> exists n, In n outs /\ net_bits n = p0 ++ t /\ nnPtr n = v) /\
  (ok = false <-> exists t v, reach tbl 0 (p0 ++ t) v /\ inner tbl v /\ length (p0 ++ t) = (8 * w)%nat).
Proof.
  intros Hn Root Lp0.
  assert (R0 : runs [] [] true). { apply runs_done. exists 1%nat. intros [|f] Hf; [lia|reflexivity]. }
  set (k0 := (8 * w - length p0)%nat).
  destruct (run_den k0 p0 n0 node [] [] true Hn) as (outs & F & Hr); [unfold k0; lia| |assumption|].
  { destruct R as [R1 R2 _ _ _ _]. exact (reach_small (aRecordSize (wMeta r)) tbl R1 R2 0 p0 n0 eq_refl Root). }
  assert (So := den_sound k0 p0 n0 Root). assert (Co := den_complete k0 p0 n0 Root).
  assert (Ba := den_bad k0 p0 n0 Root). assert (St := den_sorted k0 p0 n0 Root).
  destruct (den k0 p0 n0) as [L ok]. cbn [fst snd length app Nat.add] in *.
  exists outs, ok. split; [|split; [|split; [|split]]].
  - destruct (runs_iterate _ _ _ Hr) as [G HG]. exists G. intros f Hf. rewrite HG by assumption.
    destruct ok; [now rewrite app_nil_r|reflexivity].
  - clear - F St So Lp0. revert St So. induction F as [|n [q v] outs L Hnn F IH]; intros St So; [constructor|].
    inversion St as [|x l St' Hall]; subst. constructor.
    + apply IH; [assumption|]. intros q' v' Hi. apply So. now right.
    + apply Forall_forall. intros n2 Hi2.
      assert (exists q2 v2, In (q2, v2) L /\ is_nn n2 (q2, v2)) as (q2 & v2 & Hi & Hnn2).
      { clear - F Hi2. induction F as [|n [q v] outs L Hnn F IH]; [destruct Hi2|]. destruct Hi2 as [->|Hi2].
        - exists q, v. split; [now left|assumption].
        - destruct (IH Hi2) as (q2 & v2 & A & B). exists q2, v2. split; [now right|assumption]. }
      rewrite Forall_forall in Hall. specialize (Hall _ Hi). cbn [fst] in Hall.
      destruct (So q v (or_introl eq_refl)) as (_ & _ & _ & L1). destruct (So q2 v2 (or_intror Hi)) as (_ & _ & _ & L2).
      eapply before_val; eauto; unfold k0 in *; lia.
  - intros n Hi.
    assert (exists q2 v2, In (q2, v2) L /\ is_nn n (q2, v2)) as (q2 & v2 & Hi2 & Hnn2).
    { clear - F Hi. induction F as [|n0 [q v] outs L Hnn F IH]; [destruct Hi|]. destruct Hi as [->|Hi2].
      - exists q, v. split; [now left|assumption].
      - destruct (IH Hi2) as (q2 & v2 & A & B). exists q2, v2. split; [now right|assumption]. }
    destruct (So q2 v2 Hi2) as (A & B & C & D). split; [apply Hnn2|]. split; [|split].
    + destruct Hnn2 as (_ & _ & -> & _). unfold k0 in D. lia.
    + apply is_nn_aligned with q2 v2; [assumption|]. unfold k0 in D. lia.
    + rewrite (is_nn_bits _ _ _ Hnn2). destruct Hnn2 as (_ & _ & _ & ->). split; [|split]; assumption.
  - intros Hok p v Hp Hv. destruct (Co Hok) as [C _]. specialize (C p v Hp Hv).
    clear - F C. induction F as [|n0 [q u] outs L Hnn F IH]; [destruct C|]. destruct C as [[= -> ->]|C].
    + exists n0. split; [now left|]. split; [now apply is_nn_bits with v|apply Hnn].
    + destruct (IH C) as (n & A & B). exists n. split; [now right|assumption].
  - split.
    + intros Hok. destruct (Ba Hok) as (t & v & A & B & C). exists t, v. split; [assumption|]. split; [assumption|]. rewrite app_length. unfold k0 in C. lia.
    + intros (p & v & A & B & C). destruct ok; [|reflexivity]. exfalso. destruct (Co eq_refl) as [_ D]. specialize (D p v A B). rewrite app_length in C. unfold k0 in D. lia.
Qed.
End Iter.

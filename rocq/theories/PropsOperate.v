(** Properties of the dataset operations: C24-C30 and C48. *)
From Coq Require Import Permutation.
From Verif Require Import IpNet Inf Spec SpecIpdb Tables Operate SpecOperate OperateProofs OperateProofs2 MergeProofs.
Open Scope nat_scope.

(* ------------------------------------------------------------------ *)
(** C24, C25: merging keeps the values of every address, never adds rows, sets
    the count, and only reuses value slices of the input. *)
Theorem C24_merge_preserves : forall d, dIps (contents d) <> [] -> blocks (contents d) ->
  exists d', MergeNearNetwork d = Ok d' /\
    (forall a v, covered (contents d') a v <-> covered (contents d) a v) /\
    blocks (contents d') /\
    dFields (contents d') = dFields (contents d) /\
    vCount (dVersion (contents d')) = (N.of_nat (length (dIps (contents d'))) mod 2 ^ 32)%N.
Proof.
  intros d NE B. destruct (merge_main d) as (d' & E & H1 & H2 & H3 & H4 & H5 & H6 & H7); [|assumption|].
  { intros E. apply NE. unfold contents. rewrite E. reflexivity. }
  exists d'. split; [assumption|]. split; [assumption|]. split; [assumption|]. split; [exact H2|].
  cbn [contents dVersion dIps]. rewrite H3, map_length. reflexivity.
Qed.
Print Assumptions C24_merge_preserves.

Theorem C25_merge_never_longer : forall d d', blocks (contents d) -> MergeNearNetwork d = Ok d' ->
  length (dIps (contents d')) <= length (dIps (contents d)).
Proof.
  intros d d' B E. destruct (merge_main d) as (d2 & E2 & _ & _ & _ & _ & H & _); [|assumption|].
  { intros N. unfold MergeNearNetwork in E. rewrite N in E. discriminate. }
  assert (d2 = d') as -> by congruence. cbn [contents dIps]. rewrite !map_length. assumption.
Qed.
Print Assumptions C25_merge_never_longer.

(** C26: merging crashes exactly on datasets without rows. *)
Theorem C26_merge_crashes_iff_empty : forall d, blocks (contents d) ->
  (MergeNearNetwork d = Panic <-> dIps (contents d) = []) /\
  (dIps (contents d) <> [] -> exists d', MergeNearNetwork d = Ok d').
Proof.
  intros d B. split; [split|].
  - intros E. destruct (hRows d) as [|r rows] eqn:Er; [unfold contents; rewrite Er; reflexivity|].
    destruct (merge_main d) as (d2 & E2 & _); [congruence|assumption|]. congruence.
  - intros E. unfold contents in E. cbn [dIps] in E. apply map_eq_nil in E. unfold MergeNearNetwork. rewrite E. reflexivity.
  - intros N. destruct (C24_merge_preserves d N B) as (d' & E & _). eauto.
Qed.
Print Assumptions C26_merge_crashes_iff_empty.

(* ------------------------------------------------------------------ *)
(** C27 *)
(** Loaded tables that map every name they produce to itself. *)
Definition idempotent (tabs : list (bytes * list (bytes * bytes))) : Prop :=
  forall f m v w, assoc f tabs = Some m -> assoc v m = Some w -> assoc w m = None \/ assoc w m = Some w.
(** The table entry of a value of column i, or the value. *)
Definition entry (tabs : list (bytes * list (bytes * bytes))) (fields : list bytes) (i : nat) (v : bytes) : bytes :=
  match nth_error fields i with
  | Some f => match assoc f tabs with
              | Some m => match assoc v m with Some w => w | None => v end
              | None => v
              end
  | None => v
  end.

Lemma entry_norm tabs fields i v : norm_cell (table_at tabs fields) i v = entry tabs fields i v.
Proof. unfold norm_cell, table_at, entry. destruct (nth_error fields i); reflexivity. Qed.

Lemma entry_idem tabs fields : idempotent tabs ->
  forall i v, norm_cell (table_at tabs fields) i (norm_cell (table_at tabs fields) i v) = norm_cell (table_at tabs fields) i v.
Proof.
  intros Idem i v. unfold norm_cell, table_at. destruct (nth_error fields i) as [f|]; [|reflexivity].
  destruct (assoc f tabs) as [m|] eqn:Ef; [|reflexivity]. destruct (assoc v m) as [w|] eqn:Ev; [|rewrite Ev; reflexivity].
  destruct (Idem f m v w Ef Ev) as [->| ->]; reflexivity.
Qed.

Theorem C27_replace_is_lookup : forall tabs d, idempotent tabs ->
  let d' := contents (ReplaceShortage tabs d) in
  dFields d' = dFields (contents d) /\ dVersion d' = dVersion (contents d) /\
  length (dIps d') = length (dIps (contents d)) /\
  forall k r, nth_error (dIps (contents d)) k = Some r ->
    exists r', nth_error (dIps d') k = Some r' /\ cidr r' = cidr r /\
      length (fvals r') = length (fvals r) /\
      forall i v, nth_error (fvals r) i = Some v ->
        nth_error (fvals r') i = Some (entry tabs (dFields (contents d)) i v).
Proof.
  intros tabs d Idem d'. unfold d'. cbn [contents ReplaceShortage dFields dVersion dIps hRows hFields hVersion hHeap].
  split; [reflexivity|]. split; [reflexivity|]. split; [rewrite !map_length; reflexivity|].
  intros k r Hk. rewrite nth_error_map in Hk. destruct (nth_error (hRows d) k) as [r0|] eqn:E0; [|discriminate Hk].
  cbn in Hk. injection Hk as <-. rewrite nth_error_map, E0. cbn [option_map]. eexists. split; [reflexivity|]. cbn [cidr fvals].
  split; [reflexivity|].
  pose proof (replace_rows_view (table_at tabs (hFields d)) (hRows d) (hHeap d) (entry_idem tabs (hFields d) Idem)
                r0 (nth_error_In _ _ E0)) as V.
  split.
  - apply nth_error_length. intros i. rewrite V. destruct (nth_error (view (hHeap d) (snd r0)) i); cbn [option_map]; split; intros HH; solve [reflexivity | discriminate HH].
  - intros i v Hv. rewrite V, Hv. cbn [option_map]. rewrite entry_norm. reflexivity.
Qed.
Print Assumptions C27_replace_is_lookup.

Lemma shipped_idempotent : idempotent NormalizedMap.
Proof.
  intros f m v w Ef Ev.
  assert (table_idem m = true) as T.
  { pose proof tables_idem as T. apply andb_true_iff in T as [T T3]. apply andb_true_iff in T as [T1 T2].
    apply assoc_In in Ef. destruct Ef as [E|[E|[E|[]]]]; injection E as _ <-; assumption. }
  pose proof (table_idem_spec m T v w Ev) as H. destruct (assoc w m) as [u|]; [right; congruence|left; reflexivity].
Qed.

Lemma shipped_entry f v : exists w, normal_name f v w /\
  forall fields i, nth_error fields i = Some f -> entry NormalizedMap fields i v = w.
Proof.
  unfold normal_name, shipped_table.
  pose proof tables_tidy as T. apply andb_true_iff in T as [T T3]. apply andb_true_iff in T as [T1 T2].
  assert (forall text, tidy text = true -> exists w,
    (has_line text v w \/ w = v /\ (forall u, ~ has_line text v u)) /\
    match assoc v (parseData text) with Some w => w | None => v end = w) as Gen.
  { intros text Ht. destruct (assoc v (parseData text)) as [w|] eqn:E.
    - exists w. split; [left; apply parseData_In; [assumption|]; apply assoc_In; assumption|reflexivity].
    - exists v. split; [right; split; [reflexivity|]|reflexivity]. intros u H. apply parseData_In in H; [|assumption].
      exact (assoc_None _ _ E u H). }
  unfold entry, NormalizedMap.
  destruct (bytes_eqb_spec f (str "city")) as [->|N1]; [|destruct (bytes_eqb_spec f (str "province")) as [->|N2]; [|destruct (bytes_eqb_spec f (str "isp")) as [->|N3]]].
  - destruct (Gen CityList T1) as (w & H1 & H2). exists w. split; [assumption|]. intros fields i ->. exact H2.
  - destruct (Gen ProvinceList T2) as (w & H1 & H2). exists w. split; [assumption|]. intros fields i ->. exact H2.
  - destruct (Gen ISPList T3) as (w & H1 & H2). exists w. split; [assumption|]. intros fields i ->. exact H2.
  - exists v. split; [reflexivity|]. intros fields i ->. cbn [assoc].
    destruct (bytes_eqb_spec fCity f) as [E|_]; [exfalso; apply N1; symmetry; exact E|].
    destruct (bytes_eqb_spec fProvince f) as [E|_]; [exfalso; apply N2; symmetry; exact E|].
    destruct (bytes_eqb_spec fISP f) as [E|_]; [exfalso; apply N3; symmetry; exact E|]. reflexivity.
Qed.

(** C27 for the shipped tables, in terms of their text; whatever the rows share. *)
Theorem C27_shipped_names : forall d,
  let d' := contents (ReplaceShortage NormalizedMap d) in
  dFields d' = dFields (contents d) /\ dVersion d' = dVersion (contents d) /\
  length (dIps d') = length (dIps (contents d)) /\
  forall k r, nth_error (dIps (contents d)) k = Some r ->
    exists r', nth_error (dIps d') k = Some r' /\ cidr r' = cidr r /\
      length (fvals r') = length (fvals r) /\
      forall i v, nth_error (fvals r) i = Some v ->
        match nth_error (dFields (contents d)) i with
        | Some f => exists w, nth_error (fvals r') i = Some w /\ normal_name f v w
        | None => nth_error (fvals r') i = Some v
        end.
Proof.
  intros d d'. destruct (C27_replace_is_lookup NormalizedMap d shipped_idempotent) as (H1 & H2 & H3 & H4).
  split; [assumption|]. split; [assumption|]. split; [assumption|].
  intros k r Hk. destruct (H4 k r Hk) as (r' & A & B & C & D). exists r'. repeat (split; [assumption|]).
  intros i v Hv. specialize (D i v Hv). destruct (nth_error (dFields (contents d)) i) as [f|] eqn:Ef.
  - destruct (shipped_entry f v) as (w & W1 & W2). exists w. split; [|assumption]. rewrite D. f_equal. apply W2. assumption.
  - rewrite D. unfold entry. rewrite Ef. reflexivity.
Qed.
Print Assumptions C27_shipped_names.

(** The normal name is unique. *)
Theorem C27_normal_name_unique : forall f v w w', normal_name f v w -> normal_name f v w' -> w = w'.
Proof.
  intros f v w w'. unfold normal_name. destruct (shipped_table f) as [text|] eqn:Et; [|congruence].
  pose proof tables_tidy as T. apply andb_true_iff in T as [T T3]. apply andb_true_iff in T as [T1 T2].
  pose proof tables_distinct as U. apply andb_true_iff in U as [U U3]. apply andb_true_iff in U as [U1 U2].
  assert (tidy text = true /\ NoDup (map fst (parseData text))) as [Ti Di].
  { assert (forall x y : bytes, Some x = Some y -> x = y) as Inj by (intros x y E; congruence).
    unfold shipped_table in Et.
    destruct (bytes_eqb f (str "city")); [apply Inj in Et; subst text; split; [exact T1|apply distinct_NoDup; exact U1]|].
    destruct (bytes_eqb f (str "province")); [apply Inj in Et; subst text; split; [exact T2|apply distinct_NoDup; exact U2]|].
    destruct (bytes_eqb f (str "isp")); [apply Inj in Et; subst text; split; [exact T3|apply distinct_NoDup; exact U3]|discriminate Et]. }
  clear T1 T2 T3 U1 U2 U3 Et.
  intros [H|[-> H]] [H'|[-> H']]; try reflexivity.
  - apply (parseData_In text v _ Ti) in H. apply (parseData_In text v _ Ti) in H'. eapply NoDup_key; eassumption.
  - exfalso. eapply H'. eassumption.
  - exfalso. eapply H. eassumption.
Qed.
Print Assumptions C27_normal_name_unique.

Lemma twice tabs d : idempotent tabs ->
  contents (ReplaceShortage tabs (ReplaceShortage tabs d)) = contents (ReplaceShortage tabs d).
Proof.
  intros Idem. unfold contents. cbn [ReplaceShortage hFields hVersion hRows hHeap]. f_equal.
  apply map_ext_in. intros r Hr. f_equal. apply nth_error_ext. intros i.
  pose proof (entry_idem tabs (hFields d) Idem) as EI.
  rewrite (replace_rows_view (table_at tabs (hFields d)) (hRows d) _ EI r Hr i).
  rewrite (replace_rows_view (table_at tabs (hFields d)) (hRows d) (hHeap d) EI r Hr i).
  destruct (nth_error (view (hHeap d) (snd r)) i); [|reflexivity]. cbn [option_map]. f_equal. apply EI.
Qed.
(** Applying it twice changes nothing more. *)
Theorem C27_twice : forall d, contents (ReplaceShortage NormalizedMap (ReplaceShortage NormalizedMap d)) = contents (ReplaceShortage NormalizedMap d).
Proof. intros d. apply twice, shipped_idempotent. Qed.
Print Assumptions C27_twice.

(** Without idempotent tables shared slices go wrong: a finding about Load. *)
Example C27_not_idempotent :
  let tabs := [(str "city", [(str "a", str "b"); (str "b", str "c")])] in
  let d := mkH [str "city"] (mkVersion 1 0 0 [] [] [])
             [(mkNet [] [], mkSlc 0 1); (mkNet [] [], mkSlc 0 1)] [[str "a"]] in
  map fvals (dIps (contents (ReplaceShortage tabs d))) = [[str "c"]; [str "c"]] /\
  entry tabs [str "city"] 0 (str "a") = str "b".
Proof. split; reflexivity. Qed.
Example C27_case : normal_name (str "city") (str "三亚市") (str "三亚").
Proof. left. unfold has_line. apply in_array_iff. vm_compute. reflexivity. Qed.

(* ------------------------------------------------------------------ *)
(** C28 *)
Lemma main_nonempty k : main_operator k -> k <> [].
Proof. intros [<-|[<-|[<-|[<-|[]]]]]; discriminate. Qed.

Lemma nth_upd_ne (v : list bytes) i j x : i <> j -> nth j (upd v i x) [] = nth j v [].
Proof. intros N. rewrite nth_upd. replace (i =? j) with false by lia. reflexivity. Qed.
Lemma nth_upd_eq (v : list bytes) i x : i < length v -> nth i (upd v i x) [] = x.
Proof. intros N. rewrite nth_upd, Nat.eqb_refl. replace (i <? length v) with true by lia. reflexivity. Qed.
Lemma nth_firstn (v : list bytes) n i : i < n -> nth i (firstn n v) [] = nth i v [].
Proof.
  revert v i; induction n as [|n IH]; intros [|x v] [|i] H; cbn; try lia; try reflexivity. apply IH. lia.
Qed.

Theorem C28_trim : forall order d pi pa,
  (forall k m, Permutation (order k m) m) -> legal d ->
  only_column (str "isp") (dFields (contents d)) pi -> only_column (str "asn") (dFields (contents d)) pa ->
  pi <> 0 -> pa <> 0 ->
  Forall (fun r => pi < length (fvals r) /\ pa < length (fvals r)) (dIps (contents d)) ->
  exists d', TrimAsnIspDup order d = Ok d' /\ legal d' /\
    dFields (contents d') = dFields (contents d) /\ dVersion (contents d') = dVersion (contents d) /\
    Forall2 (fun r r' => cidr r' = cidr r /\ trimmed (dIps (contents d)) pi pa (fvals r) (fvals r'))
            (dIps (contents d)) (dIps (contents d')).
Proof.
  intros order d pi pa Perm Lg [C1 C2] [C3 C4] Hpi Hpa Wide. cbn [contents dFields] in *.
  unfold TrimAsnIspDup.
  rewrite (last_index_only fISP (hFields d) pi 0 0 C1 C2). rewrite (last_index_only fAsn (hFields d) pa 0 0 C3 C4).
  cbn [Nat.add]. replace (pi =? 0) with false by lia. replace (pa =? 0) with false by lia.
  assert (pi <> pa) as NE.
  { intros ->. rewrite C1 in C3. discriminate. }
  assert (Forall (fun r : hrow => pi < length (view (hHeap d) (snd r)) /\ pa < length (view (hHeap d) (snd r))) (hRows d)) as W.
  { cbn [dIps] in Wide. apply Forall_forall. intros r Hr. rewrite Forall_forall in Wide.
    apply (Wide (mkRaw (fst r) (view (hHeap d) (snd r)))). apply in_map_iff. exists r. auto. }
  destruct (collect_spec (hHeap d) pi pa Hpa (hRows d) [] W) as (m & Em & Cm). rewrite Em. cbn [bind].
  set (rows := dIps (contents d)).
  assert (forall k a, (exists v, In (k, v) m /\ In a v) <->
    exists r, In r rows /\ main_operator (nth pi (fvals r) []) /\ nth pa (fvals r) [] = a /\ nth pi (fvals r) [] = k) as Cm'.
  { intros k a. rewrite Cm. split.
    - intros [(v & [] & _)|(r & H1 & H2 & H3 & H4)]. exists (mkRaw (fst r) (view (hHeap d) (snd r))).
      split; [apply in_map_iff; exists r; auto|]. cbn [fvals]. rewrite H2. auto.
    - intros (r & H1 & H2 & H3 & H4). right. apply in_map_iff in H1 as (r0 & <- & H1). cbn [fvals] in *.
      exists r0. rewrite <- H4. auto. }
  set (T := trimmed rows pi pa).
  assert (forall k a, (asnMatchIsp a (order k m) <> [] /\ exists r, In r rows /\ main_operator (nth pi (fvals r) []) /\
                         nth pa (fvals r) [] = a /\ nth pi (fvals r) [] = asnMatchIsp a (order k m)) \/
                      (asnMatchIsp a (order k m) = [] /\ forall r, In r rows -> main_operator (nth pi (fvals r) []) -> nth pa (fvals r) [] <> a)) as Match.
  { intros k a. pose proof (Perm k m) as P. destruct (asnMatch_spec a (order k m)) as [[H1 (v & H2 & H3)]|[H1 H2]].
    - intros k' v H Ha. apply (Permutation_in _ P) in H. destruct (proj1 (Cm' k' a)) as (r & _ & H2 & _ & <-); [eauto|].
      apply main_nonempty. assumption.
    - left. split; [assumption|]. apply Cm'. exists v. split; [apply (Permutation_in _ P); assumption|assumption].
    - right. split; [assumption|]. intros r Hr Hm Ha.
      destruct (proj2 (Cm' (nth pi (fvals r) []) a)) as (v & H3 & H4); [exists r; auto|].
      apply (Permutation_in _ (Permutation_sym P)) in H3. exact (H2 _ _ H3 H4). }
  assert (forall r : hrow, In r (hRows d) -> legal_slc (hHeap d) (snd r)) as LL by (apply Forall_forall; exact Lg).
  rewrite Forall_forall in W.
  assert (forall s, In s (map snd (hRows d)) -> pi < length (view (hHeap d) s) /\ pa < length (view (hHeap d) s) /\
                      length (view (hHeap d) s) = sLen s) as WS.
  { intros s Hs. apply in_map_iff in Hs as (r & <- & Hr). destruct (W r Hr). rewrite view_length by (apply LL; assumption).
    rewrite view_length in * by (apply LL; assumption). auto. }
  (* a row that is still of another operator has not been changed *)
  assert (forall v0 v, pi < length v0 -> v = v0 \/ T v0 v -> ~ main_operator (nth pi v []) -> v = v0) as Fresh.
  { intros v0 v Hl [->|[[_ (r & _ & H1 & _ & ->)]|[_ ->]]] Hn; try reflexivity.
    exfalso. apply Hn. rewrite <- upd_with_col, nth_upd_eq by assumption. assumption. }
  destruct (each_row_put (fun _ => 0)
    (fun k (_ : IPNet) v => let* isp := idx v pi in let* asn := idx v pa in
       if in_array isp mainIsp then Ok Keep
       else match asnMatchIsp asn (order k m) with [] => Ok Keep | x => Ok (Put pi x) end)
    (hHeap d) (hRows d) Lg
    (fun pre s v => (v = view (hHeap d) s \/ T (view (hHeap d) s) v) /\ (forall n, In (n, s) pre -> T (view (hHeap d) s) v)))
    as (h' & E & _ & Lg' & Q).
  - intros s Hs. split; [left; reflexivity|intros n []].
  - intros pre n s todo v Er [Q1 Q2] Lv.
    assert (In s (map snd (hRows d))) as Hs by (rewrite Er, map_app; apply in_or_app; right; left; reflexivity).
    destruct (WS s Hs) as (W1 & W2 & W3).
    rewrite (idx_b v pi) by lia. cbn [bind]. rewrite (idx_b v pa) by lia. cbn [bind].
    assert (forall s' v', In s' (map snd (hRows d)) ->
       (v' = view (hHeap d) s' \/ T (view (hHeap d) s') v') /\ (forall n0, In (n0, s') pre -> T (view (hHeap d) s') v') ->
       length v' = sLen s' ->
       (sArr s' = sArr s -> firstn (Nat.min (sLen s) (sLen s')) v' = firstn (Nat.min (sLen s) (sLen s')) v) ->
       T (view (hHeap d) s) v ->
       (v' = view (hHeap d) s' \/ T (view (hHeap d) s') v') /\
       (forall n0, In (n0, s') (pre ++ [(n, s)]) -> T (view (hHeap d) s') v')) as KeepQ.
    { intros s' v' Hs' [R1 R2] Lv' Ag Tv. split; [assumption|]. intros n0 Hin. apply in_app_or in Hin as [Hin|[E|[]]]; [eauto|].
      injection E as <- <-. assert (v' = v) as ->; [|assumption].
      specialize (Ag eq_refl). rewrite Nat.min_id in Ag. rewrite <- Lv in Ag at 2. rewrite <- Lv' in Ag at 1.
      rewrite !firstn_all in Ag. assumption. }
    destruct (in_array (nth pi v []) mainIsp) eqn:Em'.
    + exists Keep. split; [reflexivity|]. split; [exact I|]. split; [exact I|].
      intros s' v' Hs' R Lv' Ag. cbn [applied].
      assert (T (view (hHeap d) s) v) as Tv.
      { destruct Q1 as [Ev|Tv]; [|assumption]. rewrite Ev in *. right. split; [left; apply in_main; assumption|reflexivity]. }
      destruct (_ =? _); apply KeepQ; assumption.
    + assert (~ main_operator (nth pi v [])) as Nm by (intros H; apply in_main in H; congruence).
      assert (v = view (hHeap d) s) as Ev by (apply Fresh; assumption).
      destruct (Match (length pre) (nth pa v [])) as [[M1 (r & M2 & M3 & M4 & M5)]|[M1 M2]].
      * exists (Put pi (asnMatchIsp (nth pa v []) (order (length pre) m))).
        split; [destruct (asnMatchIsp (nth pa v []) (order (length pre) m)); [congruence|reflexivity]|].
        split; [exact I|]. split; [lia|].
        intros s' v' Hs' [R1 R2] Lv' Ag. destruct (Nat.eqb_spec (sArr s') (sArr s)) as [Ea|Na].
        2:{ split; [assumption|]. intros n0 Hin. apply in_app_or in Hin as [Hin|[E|[]]]; [eauto|]. congruence. }
        destruct (WS s' Hs') as (W1' & W2' & W3'). specialize (Ag Ea).
        assert (nth pi v' [] = nth pi v []) as Ei.
        { rewrite <- (nth_firstn v' (Nat.min (sLen s) (sLen s'))), Ag, nth_firstn by lia. reflexivity. }
        assert (nth pa v' [] = nth pa v []) as Ea'.
        { rewrite <- (nth_firstn v' (Nat.min (sLen s) (sLen s'))), Ag, nth_firstn by lia. reflexivity. }
        assert (v' = view (hHeap d) s') as Ev' by (apply Fresh; [assumption|assumption|rewrite Ei; assumption]).
        assert (T (view (hHeap d) s') (applied (Put pi (asnMatchIsp (nth pa v []) (order (length pre) m))) v')) as Tv'.
        { left. rewrite <- Ev'. split; [rewrite Ei; assumption|]. exists r. split; [assumption|]. split; [assumption|].
          split; [congruence|]. cbn [applied]. rewrite upd_with_col by lia. rewrite M5. reflexivity. }
        split; [right; assumption|]. intros; assumption.
      * exists Keep. rewrite M1. split; [reflexivity|]. split; [exact I|]. split; [exact I|].
        intros s' v' Hs' R Lv' Ag. cbn [applied].
        assert (T (view (hHeap d) s) v) as Tv.
        { rewrite <- Ev. right. split; [right; exact M2|reflexivity]. }
        destruct (_ =? _); apply KeepQ; assumption.
  - rewrite E. cbn [bind]. eexists. split; [reflexivity|]. split; [exact Lg'|]. cbn [contents hFields hVersion hRows hHeap dFields dVersion dIps].
    split; [reflexivity|]. split; [reflexivity|].
    assert (forall r, In r (hRows d) -> T (view (hHeap d) (snd r)) (view h' (snd r))) as Fin.
    { intros [n s] Hr. destruct (Q s) as [_ Q2]; [apply in_map_iff; exists (n, s); auto|]. eapply Q2. eassumption. }
    fold T. clearbody T. unfold rows, contents. cbn [dIps]. clear - Fin. induction (hRows d) as [|r l IH]; [constructor|]. cbn [map].
    constructor; [split; [reflexivity|apply Fin; left; reflexivity]|]. apply IH. intros r' Hr'. apply Fin. right. assumption.
Qed.
Print Assumptions C28_trim.

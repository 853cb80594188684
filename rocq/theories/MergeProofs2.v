(** More about merging: networks only grow, and a partition stays one. *)
From Verif Require Import Base NetIP IpNet Inf Spec SpecIpdb IpNetProofs SplitProofs IpNetProofs2 BuildProofs PropsIpNet Operate SpecOperate MergeProofs.
Open Scope N_scope.

(** c lies inside b *)
Definition inside (c b : block) : Prop := forall a, in_block c a -> in_block b a.

(** Every block inside the split range lies in one block of the split. *)
Lemma gsplit_contains w e s bs : gsplit w e s bs -> e <= 2 ^ w ->
  forall c, aligned c -> s <= base c -> base c + 2 ^ logsz c <= e -> exists b, In b bs /\ inside c b.
Proof.
  intros G He c Ac Hs Hc.
  destruct (tiles_covers _ _ _ (gsplit_tiles _ _ _ _ G)) as [Al Cv].
  pose proof (pow_pos (logsz c)) as Pc.
  destruct (proj2 (Cv (base c))) as (b & Ib & Bb); [lia|].
  exists b. split; [assumption|].
  assert (in_block c (base c)) as Bc by (unfold in_block; lia).
  rewrite Forall_forall in Al. pose proof (Al b Ib) as Ab.
  destruct (N.le_gt_cases (logsz c) (logsz b)) as [L|L].
  - destruct (dyadic c b (base c) Ac Ab Bc Bb L) as [D1 D2]. intros a. unfold in_block. lia.
  - exfalso. destruct (dyadic b c (base c) Ab Ac Bb Bc) as [D1 D2]; [lia|].
    assert (base b = base c) as Eb by (unfold in_block in Bb; lia). clear Cv.
    assert (logsz c <= w) as Lw.
    { destruct (N.le_gt_cases (logsz c) w) as [Q|Q]; [assumption|exfalso].
      pose proof (N.pow_lt_mono_r 2 w (logsz c) ltac:(lia) Q). lia. }
    assert (greedy w (base b) e (logsz b)) as (G1 & G2 & G3 & G4).
    { clear - G Ib. induction G as [s k Gr E|s k bs Gr E G IH]; cbn [In] in Ib.
      - destruct Ib as [<-|[]]. exact Gr.
      - destruct Ib as [<-|Ib]; [exact Gr|auto]. }
    assert (base b mod 2 ^ (logsz b + 1) = 0) as M.
    { apply (mod_pow_le _ _ (logsz c)); [lia|]. rewrite Eb. exact Ac. }
    specialize (G4 ltac:(lia) M).
    pose proof (N.pow_le_mono_r 2 (logsz b + 1) (logsz c) ltac:(lia) ltac:(lia)). lia.
Qed.

(** The ranges follow each other from s to e. *)
Fixpoint chain (s : N) (l : list (Range * slc)) (e : N) : Prop :=
  match l with
  | [] => s = e
  | (r, _) :: rest => wf_range r /\ addr (rStart r) = s /\ chain (addr (rEnd r) + 1) rest e
  end.
Lemma range_ends r lo hi : wf_range r -> lo < hi -> (forall a, in_range r a <-> lo <= a < hi) ->
  addr (rStart r) = lo /\ addr (rEnd r) + 1 = hi.
Proof.
  intros [_ _ W] L H. unfold in_range in H.
  pose proof (proj1 (H (addr (rStart r)))). pose proof (proj1 (H (addr (rEnd r)))).
  pose proof (proj2 (H lo)). pose proof (proj2 (H (hi - 1))). lia.
Qed.

Lemma merge_loop_chain same : forall rows bs r f s e out, Forall2 net_block rows bs -> wf_range r ->
  addr (rEnd r) + 1 = s -> tiles s bs e -> merge_loop same r f rows = Ok out -> chain (addr (rStart r)) out e.
Proof.
  induction rows as [|[n g] rows IH]; intros bs r f s e out HF W Es T; inversion HF as [|? b ? bs' [Hn Ha] HF']; subst.
  - cbn [merge_loop]. intros [= <-]. cbn in *. auto.
  - cbn [fst] in Hn. destruct T as (T1 & _ & T2). cbn [merge_loop].
    assert ((let* r2 := NewRange n in let* out := merge_loop same r2 g rows in Ok ((r, f) :: out)) = Ok out -> chain (addr (rStart r)) out e) as Fresh.
    { destruct (NewRange_spec n b Hn Ha) as (r2 & E & W2 & _ & _ & R). rewrite E. cbn [bind].
      destruct (merge_loop same r2 g rows) as [o| | |] eqn:E2; cbn [bind]; try discriminate. intros [= <-].
      destruct (range_ends r2 (base b) (base b + 2 ^ logsz b) W2) as [R1 R2]; [pose proof (pow_pos (logsz b)); lia|exact R|].
      cbn [chain]. split; [assumption|]. split; [reflexivity|]. rewrite <- T1, <- R1.
      eapply IH; [exact HF'|exact W2|exact R2|rewrite T1; exact T2|exact E2]. }
    destruct (same f g); [|exact Fresh].
    destruct (JoinIPNet r n) as [[ok r']| | |] eqn:J; cbn [bind]; try discriminate.
    destruct ok; [|exact Fresh].
    destruct (JoinIPNet_true r n b r' W Hn Ha J) as (_ & W' & U). intros E.
    destruct (range_ends r' (addr (rStart r)) (base b + 2 ^ logsz b) W') as [R1 R2].
    { pose proof (pow_pos (logsz b)). destruct W. lia. }
    { intros a. rewrite U. unfold in_range, in_block. pose proof (pow_pos (logsz b)). destruct W. lia. }
    rewrite <- R1. eapply IH; [exact HF'|exact W'|exact R2|rewrite T1; exact T2|exact E].
Qed.

Lemma tiles_app s bs m cs e : tiles s bs m -> tiles m cs e -> tiles s (bs ++ cs) e.
Proof.
  revert s. induction bs as [|b bs IH]; intros s T U; [cbn in T; subst; exact U|].
  destruct T as (T1 & T2 & T3). cbn [app tiles]. split; [assumption|]. split; [assumption|]. apply IH; assumption.
Qed.

Lemma merge_split_tiles : forall out s e rows, chain s out e -> merge_split out = Ok rows ->
  exists bs, Forall2 net_block rows bs /\ tiles s bs e.
Proof.
  induction out as [|[r f] out IH]; intros s e rows C; cbn [merge_split].
  - intros [= <-]. exists []. split; [constructor|exact C].
  - destruct C as (W & Es & C). destruct (C01_ipnets_exact r W) as (nets & bs1 & E1 & _ & D1 & T). rewrite E1. cbn [bind].
    destruct (merge_split out) as [rows'| | |] eqn:E2; cbn [bind]; try discriminate. intros [= <-].
    destruct (IH _ _ _ C eq_refl) as (bs & D & T2).
    exists (bs1 ++ bs). split; [|rewrite <- Es; eapply tiles_app; eassumption].
    apply Forall2_app; [|assumption]. destruct (tiles_covers _ _ _ T) as [Al _]. clear - D1 Al.
    induction D1; [constructor|]. inversion Al; subst. constructor; [split; assumption|auto].
Qed.

Lemma merge_tiles d bs s e : Forall2 net_block (hRows d) bs -> tiles s bs e -> hRows d <> [] ->
  forall d', MergeNearNetwork d = Ok d' -> exists bs', Forall2 net_block (hRows d') bs' /\ tiles s bs' e.
Proof.
  intros HF T NE d'. destruct d as [fields version rows h]. cbn [hRows] in *. unfold MergeNearNetwork. cbn [hRows hHeap hFields hVersion].
  destruct rows as [|[n f] rows]; [contradiction|]. inversion HF as [|? b ? bs' [Hn Ha] HF']; subst. cbn [fst] in Hn.
  destruct T as (T1 & _ & T2).
  destruct (NewRange_spec n b Hn Ha) as (r & E & W & _ & _ & R). rewrite E. cbn [bind].
  destruct (range_ends r (base b) (base b + 2 ^ logsz b) W) as [R1 R2]; [pose proof (pow_pos (logsz b)); lia|exact R|].
  destruct (merge_loop _ r f rows) as [out| | |] eqn:E2; cbn [bind]; try discriminate.
  destruct (merge_split out) as [rows'| | |] eqn:E3; cbn [bind]; try discriminate. intros [= <-]. cbn [hRows].
  eapply merge_split_tiles; [|eassumption]. rewrite <- T1, <- R1.
  eapply merge_loop_chain; [exact HF'|exact W|exact R2|rewrite T1; exact T2|exact E2].
Qed.

(** Every network lies in one network of the result, with the same values. *)
Lemma merge_split_in : forall out rows r f c, merge_split out = Ok rows -> In (r, f) out -> wf_range r ->
  aligned c -> (forall a, in_block c a -> in_range r a) ->
  exists n b, In (n, f) rows /\ net_is n b /\ aligned b /\ inside c b.
Proof.
  induction out as [|[r0 f0] out IH]; intros rows r f c; cbn [merge_split]; [intros _ []|].
  destruct (IPNets r0) as [nets| | |] eqn:E1; cbn [bind]; try discriminate.
  destruct (merge_split out) as [rows'| | |] eqn:E2; cbn [bind]; try discriminate. intros [= <-] I W Ac Hc.
  destruct I as [I|I].
  - injection I as -> ->. destruct W as [V1 V2 L].
    destruct (IPNets_gsplit r V1 V2 L) as (nets' & bs & E & F2 & G & _).
    assert (nets' = nets) as -> by congruence. pose proof (addr_bound _ V2) as Bd.
    pose proof (pow_pos (logsz c)) as Pc.
    destruct (gsplit_contains _ _ _ _ G ltac:(lia) c Ac) as (b & Ib & Ins).
    { pose proof (Hc (base c)) as Q. unfold in_block, in_range in Q. lia. }
    { pose proof (Hc (base c + 2 ^ logsz c - 1)) as Q. unfold in_block, in_range in Q. lia. }
    destruct (tiles_covers _ _ _ (gsplit_tiles _ _ _ _ G)) as [Al _]. rewrite Forall_forall in Al.
    assert (exists n, In n nets /\ net_is n b) as (n & In' & Hn).
    { clear - F2 Ib. induction F2 as [|n b' nets bs H F2 IH]; [destruct Ib|]. destruct Ib as [<-|Ib]; [exists n; split; [now left|assumption]|].
      destruct (IH Ib) as (m & A & B). exists m. split; [now right|assumption]. }
    exists n, b. split; [apply in_or_app; left; apply in_map_iff; exists n; auto|]. auto.
  - destruct (IH rows' r f c eq_refl I W Ac Hc) as (n & b & A & B). exists n, b. split; [apply in_or_app; right; assumption|assumption].
Qed.

Lemma merge_coarser d d' : blocks (contents d) -> MergeNearNetwork d = Ok d' ->
  forall r c, In r (dIps (contents d)) -> net_is (cidr r) c -> aligned c ->
  exists r' b, In r' (dIps (contents d')) /\ fvals r' = fvals r /\ net_is (cidr r') b /\ aligned b /\ inside c b.
Proof.
  intros B E r c I Hn Ac. destruct (blocks_net d B) as [bs HF].
  destruct d as [fields version rows h]. unfold MergeNearNetwork in E. cbn [hRows hHeap hFields hVersion] in *.
  destruct rows as [|[n f] rows]; [discriminate|]. inversion HF as [|? b0 ? bs' [Hn0 Ha0] HF']; subst. cbn [fst] in Hn0.
  set (same := fun a b => strs_eqb (view h a) (view h b)) in *.
  destruct (NewRange_spec n b0 Hn0 Ha0) as (r0 & E0 & W & _ & _ & R). rewrite E0 in E. cbn [bind] in E.
  assert (forall f, same f f = true) as Refl by (intros; apply strs_eqb_refl).
  destruct (merge_loop_spec same Refl rows bs' r0 f [(f, b0)] HF') as (out & gs & E2 & D & C).
  { constructor; cbn [fst snd map]; [assumption| |constructor; [apply Refl|constructor]|left; reflexivity].
    apply covers_range; [assumption|constructor; [assumption|constructor]|].
    intros a. rewrite R. split; [intros H; exists b0; split; [left; reflexivity|assumption]|].
    intros (b' & [<-|[]] & H). assumption. }
  rewrite E2 in E. cbn [bind] in E. destruct (merge_split out) as [rows'| | |] eqn:E3; cbn [bind] in E; try discriminate. injection E as <-.
  unfold contents in I |- *. cbn [dIps hRows hHeap] in *.
  apply in_map_iff in I as ([n1 f1] & <- & I). cbn [cidr fvals fst snd] in *.
  assert (In (f1, c) (concat gs)) as Ic.
  { rewrite C. change ([(f, b0)] ++ combine (map snd rows) bs') with (combine (map snd ((n, f) :: rows)) (b0 :: bs')).
    apply combine_nth; [apply (Forall2_length HF)|]. apply In_nth_error in I as [i Hi].
    destruct (nth_error (b0 :: bs') i) as [b1|] eqn:Eb.
    2:{ apply nth_error_None in Eb. pose proof (Forall2_length HF). assert (nth_error ((n, f) :: rows) i <> None) as Q by congruence. apply nth_error_Some in Q. lia. }
    assert (net_block (n1, f1) b1) as [Hn1 _].
    { clear - HF Hi Eb. revert i Hi Eb. induction HF as [|? ? ? ? H HF IH]; intros [|i] Hi Eb; cbn in *; try discriminate; [congruence|eauto]. }
    exists i, n1. split; [assumption|]. rewrite Eb. f_equal. eapply net_is_fun; eassumption. }
  apply in_concat in Ic as (g & Hg & Ic).
  assert (exists r1 f2, In (r1, f2) out /\ group same (r1, f2) g) as (r1 & f2 & H1 & [G1 G2 G3 G4]).
  { clear - D Hg. induction D as [|[r1 f2] g' out gs G D IH]; [destruct Hg|]. destruct Hg as [->|Hg]; [exists r1, f2; split; [now left|assumption]|].
    destruct (IH Hg) as (r2 & f3 & A & B). exists r2, f3. split; [now right|assumption]. }
  cbn [fst snd] in *.
  destruct (merge_split_in out rows' r1 f2 c E3 H1 G1 Ac) as (n2 & b2 & A1 & A2 & A3 & A4).
  { intros a Ba. apply (range_covers _ _ G2). exists c. split; [|assumption]. apply in_map_iff. exists (f1, c). auto. }
  exists (mkRaw n2 (view h f2)), b2. split; [apply in_map_iff; exists (n2, f2); auto|]. cbn [cidr fvals].
  split; [|auto]. rewrite Forall_forall in G3. specialize (G3 _ Ic). cbn [fst] in G3. unfold same in G3.
  destruct (strs_eqb_spec (view h f2) (view h f1)); congruence.
Qed.

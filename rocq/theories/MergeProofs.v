From Verif Require Import IpNet Inf Spec SpecIpdb IpNetProofs2 BuildProofs PropsIpNet Operate SpecOperate.
Open Scope N_scope.

Definition net_block (r : hrow) (b : block) : Prop := net_is (fst r) b /\ aligned b.

(** One merged range and the rows it came from. *)
Record group (same : slc -> slc -> bool) (rf : Range * slc) (g : list (slc * block)) : Prop := {
  gr_wf : wf_range (fst rf);
  gr_cov : covers (map snd g) (addr (rStart (fst rf))) (addr (rEnd (fst rf)) + 1);
  gr_same : Forall (fun e => same (snd rf) (fst e) = true) g;
  gr_in : In (snd rf) (map fst g) }.

Lemma covers_range cs r : wf_range r -> Forall aligned cs ->
  (forall a, in_range r a <-> exists b, In b cs /\ in_block b a) ->
  covers cs (addr (rStart r)) (addr (rEnd r) + 1).
Proof.
  intros W A H. split; [assumption|]. intros a. rewrite <- H. unfold in_range. lia.
Qed.
Lemma range_covers cs r : covers cs (addr (rStart r)) (addr (rEnd r) + 1) ->
  forall a, in_range r a <-> exists b, In b cs /\ in_block b a.
Proof. intros [_ H] a. rewrite H. unfold in_range. lia. Qed.

Lemma merge_loop_spec same : (forall f, same f f = true) ->
  forall rows bs r f g, Forall2 net_block rows bs -> group same (r, f) g ->
  exists out gs, merge_loop same r f rows = Ok out /\ Forall2 (group same) out gs /\
    concat gs = g ++ combine (map snd rows) bs.
Proof.
  intros Refl. induction rows as [|[n s] rows IH]; intros bs r f g HF G; inversion HF as [|? b ? bs' [Hn Ha] HF']; subst.
  - exists [(r, f)], [g]. split; [reflexivity|]. split; [constructor; [assumption|constructor]|]. cbn. rewrite !app_nil_r. reflexivity.
  - cbn [fst snd] in Hn. cbn [merge_loop map combine].
    assert (exists out gs,
      (let* r2 := NewRange n in let* out := merge_loop same r2 s rows in Ok ((r, f) :: out)) = Ok out /\
      Forall2 (group same) out gs /\ concat gs = g ++ (s, b) :: combine (map snd rows) bs') as Fresh.
    { destruct (NewRange_spec n b Hn Ha) as (r2 & E & W & _ & _ & R). rewrite E. cbn [bind].
      destruct (IH bs' r2 s [(s, b)] HF') as (out & gs & E2 & D & C).
      - constructor; cbn [fst snd map]; [assumption| |constructor; [apply Refl|constructor]|left; reflexivity].
        apply covers_range; [assumption|constructor; [assumption|constructor]|].
        intros a. rewrite R. split; [intros H; exists b; split; [left; reflexivity|assumption]|].
        intros (b' & [<-|[]] & H). assumption.
      - rewrite E2. cbn [bind]. exists ((r, f) :: out), (g :: gs). split; [reflexivity|].
        split; [constructor; assumption|]. cbn [concat]. rewrite C. reflexivity. }
    destruct (same f s) eqn:Es; [|exact Fresh].
    destruct G as [W Cov Sm GI]. cbn [fst snd] in *.
    destruct (C07_join_ipnet r n b W Hn Ha) as (ok & r' & E & J1 & J2 & _).
    rewrite E. cbn [bind]. destruct ok; [|exact Fresh].
    destruct (J1 eq_refl) as [L U].
    destruct (JoinIPNet_true r n b r' W Hn Ha E) as [_ [W' _]].
    destruct (IH bs' r' f (g ++ [(s, b)]) HF') as (out & gs & E2 & D & C).
    + constructor; cbn [fst snd].
      * assumption.
      * rewrite map_app. apply covers_range; [assumption| |].
        -- apply Forall_app. split; [apply Cov|]. constructor; [assumption|constructor].
        -- intros a. rewrite U, (range_covers _ _ Cov). cbn [map snd]. split.
           ++ intros [(b' & H1 & H2)|H]; [exists b'; split; [apply in_or_app; left; assumption|assumption]|].
              exists b. split; [apply in_or_app; right; left; reflexivity|assumption].
           ++ intros (b' & H1 & H2). apply in_app_or in H1 as [H1|[<-|[]]]; [left; eauto|right; assumption].
      * apply Forall_app. split; [assumption|]. constructor; [assumption|constructor].
      * rewrite map_app. apply in_or_app. left. assumption.
    + exists out, gs. split; [assumption|]. split; [assumption|]. rewrite C, <- app_assoc. reflexivity.
Qed.

Lemma merge_split_spec same : forall out gs, Forall2 (group same) out gs ->
  exists rows bs, merge_split out = Ok rows /\ Forall2 net_block rows bs /\
    (length rows <= length (concat gs))%nat /\
    (forall f a, (exists i n b, nth_error rows i = Some (n, f) /\ nth_error bs i = Some b /\ in_block b a) <->
                 (exists r, In (r, f) out /\ in_range r a)).
Proof.
  induction 1 as [|[r f] g out gs G HF IH].
  - exists [], []. split; [reflexivity|]. split; [constructor|]. split; [cbn; lia|].
    intros f a. split; [intros (i & n & b & H & _); destruct i; discriminate|]. intros (r & [] & _).
  - destruct IH as (rows & bs & E & D & L & C). destruct G as [W Cov Sm GI]. cbn [fst snd] in *.
    destruct (C01_ipnets_exact r W) as (nets & bs1 & E1 & _ & D1 & T).
    pose proof (C02_ipnets_shortest r nets W E1 _ Cov) as L1. rewrite map_length in L1.
    destruct (tiles_covers _ _ _ T) as [Al Cv].
    exists (map (fun n => (n, f)) nets ++ rows), (bs1 ++ bs). cbn [merge_split]. rewrite E1. cbn [bind]. rewrite E. cbn [bind].
    
    assert (length (map (fun n => (n, f)) nets) = length bs1) as EL.
    { rewrite map_length. apply (Forall2_length D1). }
    split; [reflexivity|]. split; [|split].
    + apply Forall2_app; [|assumption]. clear - D1 Al.
      induction D1; [constructor|]. inversion Al; subst. constructor; [split; assumption|apply IHD1; assumption].
    + cbn [concat]. rewrite !app_length, map_length. lia.
    + intros f' a. split.
      * intros (i & n & b & H1 & H2 & H3). destruct (Nat.lt_ge_cases i (length bs1)) as [Hi|Hi].
        -- rewrite nth_error_app1 in H1 by lia. rewrite nth_error_app1 in H2 by lia.
           apply nth_error_In in H1. apply in_map_iff in H1 as (n' & H1 & _). injection H1 as <- <-.
           exists r. split; [left; reflexivity|]. apply nth_error_In in H2. unfold in_range.
           assert (addr (rStart r) <= a < addr (rEnd r) + 1) by (apply Cv; eauto). lia.
        -- rewrite nth_error_app2 in H1 by lia. rewrite nth_error_app2 in H2 by lia. rewrite EL in H1.
           destruct (proj1 (C f' a)) as (r' & H4 & H5); [eauto 6|]. exists r'. split; [right; assumption|assumption].
      * intros (r' & [E'|H1] & H2).
        -- injection E' as <- <-. destruct (proj2 (Cv a)) as (b & H3 & H4); [unfold in_range in H2; lia|].
           apply In_nth_error in H3 as [i H3]. assert (i < length bs1)%nat as Hi by (apply nth_error_Some; congruence).
           destruct (nth_error nets i) as [n|] eqn:En.
           2:{ apply nth_error_None in En. rewrite map_length in EL. lia. }
           exists i, n, b. rewrite nth_error_app1 by lia. rewrite nth_error_app1 by lia.
           split; [|split; assumption]. rewrite nth_error_map, En. reflexivity.
        -- destruct (proj2 (C f' a)) as (i & n & b & H3 & H4 & H5); [eauto|].
           exists (length bs1 + i)%nat, n, b. rewrite !nth_error_app2 by lia. rewrite EL.
           replace (length bs1 + i - length bs1)%nat with i by lia. auto.
Qed.

Lemma blocks_net d : blocks (contents d) -> exists bs, Forall2 net_block (hRows d) bs.
Proof.
  unfold blocks, contents. cbn [dIps]. induction (hRows d) as [|[n s] rows IH]; intros H.
  - exists []. constructor.
  - cbn [map] in H. inversion H as [|? ? (b & H1 & H2) H3]; subst. cbn in H1.
    destruct (IH H3) as [bs D]. exists (b :: bs). constructor; [split; assumption|assumption].
Qed.

Lemma covered_pairs d bs a v : Forall2 net_block (hRows d) bs ->
  (covered (contents d) a v <->
   exists f b, In (f, b) (combine (map snd (hRows d)) bs) /\ view (hHeap d) f = v /\ in_block b a).
Proof.
  unfold covered, contents. cbn [dIps]. induction 1 as [|[n s] b rows bs [Hn Ha] HF IH].
  - split; [intros (r & b & [] & _)|intros (f & b & [] & _)].
  - cbn [map snd combine fst] in *. split.
    + intros (r & b' & [E|Hin] & H1 & H2 & H3 & H4).
      * subst r. cbn in *. assert (b' = b) by (eapply net_is_fun; eassumption). subst b'.
        exists s, b. split; [left; reflexivity|auto].
      * destruct (proj1 IH) as (f & b2 & H5 & H6 & H7); [exists r, b'; auto 6|]. exists f, b2. split; [right; assumption|auto].
    + intros (f & b' & [E|Hin] & H1 & H2).
      * injection E as <- <-. eexists. exists b. split; [left; reflexivity|]. cbn. auto.
      * destruct (proj2 IH) as (r & b2 & H3 & H4); [eauto|]. exists r, b2. split; [right; assumption|assumption].
Qed.

Lemma combine_nth (rows : list hrow) (bs : list block) f b : length rows = length bs ->
  (In (f, b) (combine (map snd rows) bs) <-> exists i n, nth_error rows i = Some (n, f) /\ nth_error bs i = Some b).
Proof.
  revert bs; induction rows as [|[n s] rows IH]; intros [|c bs] L; try discriminate.
  - cbn. split; [tauto|]. intros (i & n & H & _). destruct i; discriminate.
  - injection L as L. cbn [map snd combine]. split.
    + intros [E|H]; [injection E as <- <-; exists 0%nat, n; auto|].
      apply IH in H as (i & m & H); [|assumption]. exists (S i), m. assumption.
    + intros ([|i] & m & H1 & H2); cbn in *; [left; congruence|]. right. apply IH; [assumption|]. eauto.
Qed.

Theorem merge_main d : hRows d <> [] -> blocks (contents d) ->
  exists d', MergeNearNetwork d = Ok d' /\
    hHeap d' = hHeap d /\ hFields d' = hFields d /\
    hVersion d' = set_count (hVersion d) (length (hRows d')) /\
    blocks (contents d') /\ (length (hRows d') <= length (hRows d))%nat /\
    (forall r, In r (hRows d') -> exists r0, In r0 (hRows d) /\ snd r = snd r0) /\
    forall a v, covered (contents d') a v <-> covered (contents d) a v.
Proof.
  intros NE B. destruct (blocks_net d B) as [bs HF].
  destruct d as [fields version rows h]. cbn [hRows hHeap hFields hVersion] in *.
  destruct rows as [|[n f] rows]; [congruence|]. inversion HF as [|? b ? bs' [Hn Ha] HF']; subst. cbn [fst] in Hn.
  set (same := fun a b => strs_eqb (view h a) (view h b)).
  assert (forall f, same f f = true) as Refl by (intros; apply strs_eqb_refl).
  unfold MergeNearNetwork. cbn [hRows hHeap hFields hVersion].
  destruct (NewRange_spec n b Hn Ha) as (r & E & W & _ & _ & R). rewrite E. cbn [bind].
  destruct (merge_loop_spec same Refl rows bs' r f [(f, b)] HF') as (out & gs & E2 & D & C).
  { constructor; cbn [fst snd map]; [assumption| |constructor; [apply Refl|constructor]|left; reflexivity].
    apply covers_range; [assumption|constructor; [assumption|constructor]|].
    intros a. rewrite R. split; [intros H; exists b; split; [left; reflexivity|assumption]|].
    intros (b' & [<-|[]] & H). assumption. }
  fold same. rewrite E2. cbn [bind].
  destruct (merge_split_spec same out gs D) as (rows' & bs2 & E3 & D2 & L & Cv). rewrite E3. cbn [bind].
  eexists. split; [reflexivity|]. cbn [hRows hHeap hFields hVersion].
  assert (concat gs = combine (map snd ((n, f) :: rows)) (b :: bs')) as C' by exact C. clear C.
  assert (length ((n, f) :: rows) = length (b :: bs')) as L0 by apply (Forall2_length HF).
  assert (forall r0 f0, In (r0, f0) out -> exists g, In g gs /\ group same (r0, f0) g) as Src.
  { clear - D. intros r0 f0 H. induction D as [|x g out gs G D IH]; [destruct H|].
    destruct H as [->|H]; [exists g; split; [left; reflexivity|assumption]|].
    destruct (IH H) as (g' & H1 & H2). exists g'. split; [right; assumption|assumption]. }
  assert (forall g, In g gs -> exists r0 f0, In (r0, f0) out /\ group same (r0, f0) g) as Src'.
  { clear - D. intros g H. induction D as [|[r0 f0] g' out gs G D IH]; [destruct H|].
    destruct H as [->|H]; [exists r0, f0; split; [left; reflexivity|assumption]|].
    destruct (IH H) as (r1 & f1 & H1 & H2). exists r1, f1. split; [right; assumption|assumption]. }
  assert (forall f1 f2, same f1 f2 = true -> view h f1 = view h f2) as Sm.
  { intros f1 f2 H. unfold same in H. destruct (strs_eqb_spec (view h f1) (view h f2)); congruence. }
  repeat (split; [reflexivity|]). split; [|split; [|split]].
  - unfold blocks, contents. cbn [dIps hRows]. apply Forall_forall. intros x Hx.
    apply in_map_iff in Hx as ([n' f'] & <- & Hin). cbn [cidr fst].
    apply In_nth_error in Hin as [i Hi]. 
    clear - D2 Hi. revert i Hi. induction D2 as [|x c rows bs [H1 H2] D IH]; intros [|i] Hi; try discriminate.
    + injection Hi as ->. exists c. auto.
    + apply (IH i Hi).
  - rewrite C' in L. rewrite combine_length, map_length in L. cbn [length] in *; lia.
  - intros [n' f'] Hin. cbn [snd]. apply In_nth_error in Hin as [i Hi].
    destruct (nth_error bs2 i) as [c|] eqn:Ec.
    2:{ apply nth_error_None in Ec. pose proof (Forall2_length D2) as EL.
        assert (i < length rows')%nat by (apply nth_error_Some; congruence). lia. }
    destruct (proj1 (Cv f' (base c))) as (r0 & H1 & _).
    { exists i, n', c. split; [assumption|]. split; [assumption|]. unfold in_block. pose proof (pow_pos (logsz c)). lia. }
    destruct (Src _ _ H1) as (g & Hg & [_ _ _ GI]). cbn [snd] in GI.
    apply in_map_iff in GI as ([f2 c2] & E4 & H2). cbn in E4. subst f2.
    assert (In (f', c2) (concat gs)) as H3 by (apply in_concat; eauto).
    rewrite C' in H3. apply combine_nth in H3 as (j & m & H4 & H5); [|assumption].
    exists (m, f'). split; [eapply nth_error_In; eassumption|reflexivity].
  - intros a v.
    rewrite (covered_pairs (mkH fields version ((n, f) :: rows) h) (b :: bs') a v HF).
    rewrite (covered_pairs (mkH _ _ rows' h) bs2 a v D2). cbn [hRows hHeap].
    rewrite <- C'. split.
    + intros (f' & c & H1 & H2 & H3). apply combine_nth in H1 as (i & m & H4 & H5); [|apply (Forall2_length D2)].
      destruct (proj1 (Cv f' a)) as (r0 & H6 & H7); [eauto 6|].
      destruct (Src _ _ H6) as (g & Hg & [G1 G2 G3 G4]). cbn [fst snd] in *.
      destruct (proj1 (range_covers _ _ G2 a) H7) as (c2 & H8 & H9).
      apply in_map_iff in H8 as ([f2 c3] & E4 & H8). cbn in E4. subst c3.
      exists f2, c2. split; [apply in_concat; eauto|]. split; [|assumption].
      rewrite Forall_forall in G3. specialize (G3 _ H8). cbn in G3. apply Sm in G3. congruence.
    + intros (f' & c & H1 & H2 & H3). apply in_concat in H1 as (g & Hg & H1).
      destruct (Src' _ Hg) as (r0 & f0 & H4 & [G1 G2 G3 G4]). cbn [fst snd] in *.
      destruct (proj2 (Cv f0 a)) as (i & m & c2 & H5 & H6 & H7).
      { exists r0. split; [assumption|]. apply (range_covers _ _ G2). exists c. split; [|assumption].
        apply in_map_iff. exists (f', c). auto. }
      exists f0, c2. split; [apply combine_nth; [apply (Forall2_length D2)|eauto]|]. split; [|assumption].
      rewrite Forall_forall in G3. specialize (G3 _ H1). cbn in G3. apply Sm in G3. congruence.
Qed.

(** Lemmas about the loop of BuildIPData. *)
From Verif Require Import Base NetIP IpNet Spec IpNetProofs SplitProofs IpNetProofs2 Ipdb SpecIpdb SpecExport Export ExportProofs.
Open Scope N_scope.

Lemma all_ff_ones l : all_ff l = true <-> all_ones l.
Proof.
  unfold all_ones. induction l as [|b l IH]; [cbn; split; reflexivity|].
  cbn [all_ff forallb val length]. rewrite pow8_S. pose proof (b2n_lt b). pose proof (val_bound l) as B.
  set (P := 2 ^ (8 * N.of_nat (length l))) in *. clearbody P.
  destruct (byte_eqb_spec b xff) as [->|N]; cbn [andb].
  - change (all_ff l = true <-> b2n xff * P + val l + 1 = 256 * P). rewrite IH.
    change (b2n xff) with 255. lia.
  - split; [discriminate|]. intros E. exfalso. assert (b2n b <> 255) by (intros Q; apply N, b2n_inj; rewrite Q; reflexivity).
    assert (b2n b <= 254) by lia. nia.
Qed.

(** One network of the family: its last address and the next start. *)
Lemma net_step fam (Hfam : fam = fam4 \/ fam = fam6) n b : net_is n b -> aligned b -> length (nIP n) = fam_len fam ->
  exists last, LastIP n = Ok last /\ fam_first fam <= base b /\ base b + 2 ^ logsz b <= fam_end fam /\
    if IsAllMask last then base b + 2 ^ logsz b = fam_end fam
    else base b + 2 ^ logsz b < fam_end fam /\ exists next, NextStart n = Ok next /\ valid_ip next /\ addr next = base b + 2 ^ logsz b.
Proof.
  intros Hn Ha L. destruct (LastIP_aligned n b Hn Ha) as [last [E1 [E2 E3]]]. exists last. split; [assumption|].
  pose proof (ni_len _ _ Hn) as V. assert (valid_ip last) as Vl by (unfold valid_ip in *; rewrite E2; assumption).
  pose proof (pow_pos (logsz b)) as P. pose proof (all_ff_ones last) as AO. unfold all_ones in AO.
  pose proof (val_bound last) as B. pose proof (addr_val last Vl) as Al. pose proof (ni_base _ _ Hn) as Nb. pose proof (addr_val _ V) as An.
  rewrite E2 in Al, B, AO. rewrite L in *.
  unfold IsAllMask.
  assert (fam_len fam = 4%nat /\ fam_first fam = v4base /\ fam_end fam = v4base + 2 ^ 32 \/
          fam_len fam = 16%nat /\ fam_first fam = 0 /\ fam_end fam = 2 ^ 128) as F.
  { destruct Hfam as [-> | ->]; [left|right]; repeat split; reflexivity. }
  destruct F as [[F1 [F2 F3]]|[F1 [F2 F3]]]; rewrite F1, F2, F3 in *; cbn [Nat.eqb] in Al, An;
    [change (8 * N.of_nat 4) with 32 in *|change (8 * N.of_nat 16) with 128 in *].
  - split; [lia|]. split; [alia|].
    destruct (all_ff last) eqn:Q.
    + assert (val last + 1 = 2 ^ 32) by tauto. alia.
    + assert (val last + 1 <> 2 ^ 32) by (intros X; apply AO in X; discriminate).
      split; [alia|]. exists (NextIP last). unfold NextStart. rewrite E1. cbn [bind]. split; [reflexivity|].
      split; [apply NextIP_valid; assumption|]. rewrite NextIP_addr; [alia|assumption|].
      unfold all_ones. rewrite E2. assumption.
  - split; [lia|]. split; [alia|].
    destruct (all_ff last) eqn:Q.
    + assert (val last + 1 = 2 ^ 128) by tauto. alia.
    + assert (val last + 1 <> 2 ^ 128) by (intros X; apply AO in X; discriminate).
      split; [alia|]. exists (NextIP last). unfold NextStart. rewrite E1. cbn [bind]. split; [reflexivity|].
      split; [apply NextIP_valid; assumption|]. rewrite NextIP_addr; [alia|assumption|].
      unfold all_ones. rewrite E2. assumption.
Qed.

Section Loop.
Variable find : bytes -> res (IPNet * list (bytes * bytes)).
Variable values : list (bytes * bytes) -> res (list bytes).

Lemma build_mono fuel fuel' m rows : (fuel <= fuel')%nat -> build_loop find values fuel m = Ok rows ->
  build_loop find values fuel' m = Ok rows.
Proof.
  revert fuel' m rows; induction fuel as [|k IH]; intros fuel' m rows L H; [discriminate|].
  destruct fuel' as [|k']; [lia|]. cbn [build_loop] in *.
  destruct (find m) as [[n info]| | |]; cbn [bind] in *; try discriminate.
  destruct (values info) as [vs| | |]; cbn [bind] in *; try discriminate.
  destruct (LastIP n) as [last| | |]; cbn [bind] in *; try discriminate.
  destruct (IsAllMask last); [assumption|].
  destruct (NextStart n) as [next| | |]; cbn [bind] in *; try discriminate.
  destruct (build_loop find values k next) as [rest| | |] eqn:E; cbn [bind] in *; try discriminate.
  rewrite (IH k' next rest) by (lia || assumption). assumption.
Qed.

(** Markers visited by the loop. *)
Inductive visits (m0 : bytes) : bytes -> Prop :=
| v_start : visits m0 m0
| v_next m n info vs last next : visits m0 m -> find m = Ok (n, info) -> values info = Ok vs ->
    LastIP n = Ok last -> IsAllMask last = false -> NextStart n = Ok next -> visits m0 next.

Lemma visits_trans m0 m1 m2 : visits m0 m1 -> visits m1 m2 -> visits m0 m2.
Proof. intros H1 H2. induction H2; [assumption|]. eapply v_next; eassumption. Qed.

Lemma visits_err m0 m e : visits m0 m -> find m = Err e ->
  exists fuel0, forall fuel, (fuel0 <= fuel)%nat -> build_loop find values fuel m0 = Err e.
Proof.
  intros V E.
  assert (exists k, forall fuel, build_loop find values (k + S fuel) m0 = Err e) as [k H].
  { cut (forall R, (exists k1, forall fuel, build_loop find values (k1 + S fuel) m = Err R) ->
        exists k, forall fuel, build_loop find values (k + S fuel) m0 = Err R).
    { intros G. apply G. exists 0%nat. intros fuel. cbn [Nat.add build_loop]. rewrite E. reflexivity. }
    clear E. intros R. induction V as [|m n info vs last next V IH F Va La Am Nx]; [auto|].
    intros [k1 H1]. apply IH. exists (S k1). intros fuel. cbn [Nat.add build_loop].
    rewrite F. cbn [bind]. rewrite Va. cbn [bind]. rewrite La. cbn [bind]. rewrite Am, Nx. cbn [bind]. rewrite H1. reflexivity. }
  exists (S k). intros fuel L. replace fuel with (k + S (fuel - S k))%nat by lia. apply H.
Qed.

Lemma build_ok_visits fuel m0 rows : build_loop find values fuel m0 = Ok rows ->
  forall m, visits m0 m -> exists n info vs last, find m = Ok (n, info) /\ values info = Ok vs /\ LastIP n = Ok last.
Proof.
  intros H m V.
  assert (exists fuel' rows', build_loop find values fuel' m = Ok rows') as [fuel' [rows' H']].
  { induction V as [|m n info vs last next V IH F Va La Am Nx]; [eauto|].
    destruct IH as [f' [r' B]]. destruct f' as [|f']; [discriminate|]. cbn [build_loop] in B.
    rewrite F in B. cbn [bind] in B. rewrite Va in B. cbn [bind] in B. rewrite La in B. cbn [bind] in B.
    rewrite Am, Nx in B. cbn [bind] in B. destruct (build_loop find values f' next) eqn:Q; try discriminate. eauto. }
  destruct fuel' as [|k]; [discriminate|]. cbn [build_loop] in H'.
  destruct (find m) as [[n info]| | |]; cbn [bind] in *; try discriminate.
  destruct (values info) as [vs| | |] eqn:Ev; cbn [bind] in *; try discriminate.
  destruct (LastIP n) as [last| | |] eqn:El; cbn [bind] in *; try discriminate. eauto 10.
Qed.

(** Every row comes from a visited marker. *)
Lemma build_rows fuel m0 rows : build_loop find values fuel m0 = Ok rows ->
  forall r, In r rows -> exists m info, visits m0 m /\ find m = Ok (cidr r, info) /\ values info = Ok (fvals r).
Proof.
  revert m0 rows; induction fuel as [|k IH]; intros m0 rows H r I; [discriminate|]. cbn [build_loop] in H.
  destruct (find m0) as [[n info]| | |] eqn:F; cbn [bind] in *; try discriminate.
  destruct (values info) as [vs| | |] eqn:Va; cbn [bind] in *; try discriminate.
  destruct (LastIP n) as [last| | |] eqn:La; cbn [bind] in *; try discriminate.
  destruct (IsAllMask last) eqn:Am.
  - injection H as <-. destruct I as [<-|[]]. exists m0, info. split; [constructor|]. auto.
  - destruct (NextStart n) as [next| | |] eqn:Nx; cbn [bind] in *; try discriminate.
    destruct (build_loop find values k next) as [rest| | |] eqn:E; cbn [bind] in *; try discriminate.
    injection H as <-. destruct I as [<-|I].
    + exists m0, info. split; [constructor|]. auto.
    + destruct (IH _ _ E r I) as [m [info' [V H]]]. exists m, info'. split; [|assumption].
      eapply visits_trans; [|exact V]. eapply v_next; [constructor| | | | |]; eassumption.
Qed.

Variable fam : family.
Hypothesis Hfam : fam = fam4 \/ fam = fam6.
Hypothesis Hval : forall info, exists vs, values info = Ok vs.

Variable S : N -> Prop.
Hypothesis HS : forall ip, valid_ip ip -> S (addr ip) -> exists n rec b, find ip = Ok (n, rec) /\
  length (nIP n) = fam_len fam /\ net_is n b /\ aligned b /\ base b = addr ip /\
  (addr ip + 2 ^ logsz b <> fam_end fam -> S (addr ip + 2 ^ logsz b)).

Definition row_from (r : IpRaw) (b : block) : Prop :=
  net_is (cidr r) b /\ S (base b) /\ length (nIP (cidr r)) = fam_len fam /\
  exists ip rec, valid_ip ip /\ addr ip = base b /\ find ip = Ok (cidr r, rec) /\ values rec = Ok (fvals r).

Lemma build_tiles ip : valid_ip ip -> S (addr ip) ->
  exists fuel rows bs, build_loop find values fuel ip = Ok rows /\ Forall2 row_from rows bs /\ tiles (addr ip) bs (fam_end fam).
Proof.
  remember (fam_end fam - addr ip) as d eqn:Ed. revert ip Ed.
  induction d as [d IH] using (well_founded_induction N.lt_wf_0). intros ip Ed V Sip.
  destruct (HS ip V Sip) as [n [rec [b [F [L [Hn [Ha [Hb Hnext]]]]]]]].
  destruct (Hval rec) as [vs Hv].
  destruct (net_step fam Hfam n b Hn Ha L) as [last [E1 [B1 [B2 C]]]].
  assert (row_from (mkRaw n vs) b) as R.
  { split; [assumption|]. rewrite Hb. split; [assumption|]. split; [assumption|]. exists ip, rec. auto. }
  pose proof (pow_pos (logsz b)) as P.
  destruct (IsAllMask last) eqn:Am.
  - exists 1%nat, [mkRaw n vs], [b]. cbn [build_loop]. rewrite F. cbn [bind]. rewrite Hv. cbn [bind].
    rewrite E1. cbn [bind]. rewrite Am. split; [reflexivity|]. split; [constructor; [assumption|constructor]|].
    cbn [tiles]. rewrite <- Hb. auto.
  - destruct C as [Lt [next [E2 [Vn An]]]].
    assert (S (addr next)) as Sn by (rewrite An, Hb; apply Hnext; rewrite <- Hb; alia).
    destruct (IH (fam_end fam - addr next) ltac:(rewrite An; alia) next eq_refl Vn Sn) as [fuel [rows [bs [E3 [F2 T]]]]].
    exists (Datatypes.S fuel), (mkRaw n vs :: rows), (b :: bs). cbn [build_loop]. rewrite F. cbn [bind]. rewrite Hv. cbn [bind].
    rewrite E1. cbn [bind]. rewrite Am, E2. cbn [bind]. rewrite E3. cbn [bind]. split; [reflexivity|].
    split; [constructor; assumption|]. cbn [tiles]. split; [assumption|]. split; [assumption|]. rewrite <- Hb, <- An. assumption.
Qed.
End Loop.

Lemma net_is_fun n b b' : net_is n b -> net_is n b' -> b = b'.
Proof.
  intros H H'. pose proof (mask_size_net n b H) as M. pose proof (mask_size_net n b' H') as M'.
  pose proof (ni_logsz _ _ H) as L. pose proof (ni_logsz _ _ H') as L'.
  pose proof (ni_base _ _ H) as B. pose proof (ni_base _ _ H') as B'.
  pose proof (ni_mask _ _ H) as K. pose proof (ni_mask _ _ H') as K'. rewrite K in K'.
  assert (2 ^ logsz b = 2 ^ logsz b') as E.
  { pose proof (N.pow_le_mono_r 2 _ _ ltac:(discriminate) L). pose proof (N.pow_le_mono_r 2 _ _ ltac:(discriminate) L'). alia. }
  apply N.pow_inj_r in E; [|lia]. destruct b, b'. cbn in *. congruence.
Qed.

Lemma ip_of_addr a : a < 2 ^ 128 -> exists ip, valid_ip ip /\ addr ip = a.
Proof.
  intros H. exists (be_enc 16 a). split; [right; apply be_enc_length|].
  rewrite addr_16 by apply be_enc_length. rewrite val_be_enc. apply N.mod_small. exact H.
Qed.

Lemma aligned_nested b b' a : aligned b -> aligned b' -> in_block b a -> in_block b' a -> logsz b <= logsz b' ->
  forall x, in_block b x -> in_block b' x.
Proof.
  intros A A' B B' L x X.
  assert (forall c y, aligned c -> (in_block c y <-> y / 2 ^ logsz c = base c / 2 ^ logsz c)) as G.
  { intros [cb cl] y Ac. unfold aligned in Ac. cbn [base logsz] in *. rewrite <- in_block_floor.
    pose proof (N.div_mod cb (2 ^ cl) ltac:(pose proof (pow_pos cl); lia)) as D. rewrite Ac in D.
    assert (cb / 2 ^ cl * 2 ^ cl = cb) as -> by (rewrite N.mul_comm; clear - D; alia). reflexivity. }
  apply G; [assumption|]. apply G in B; [|assumption]. apply G in B'; [|assumption]. apply G in X; [|assumption].
  rewrite <- B'. replace (logsz b') with (logsz b + (logsz b' - logsz b)) by flia. rewrite N.pow_add_r.
  rewrite <- !N.div_div by (apply N.pow_nonzero; discriminate). congruence.
Qed.

(** Rows of any successful run over a well-behaved finder tile the family. *)
Section Tile.
Variable find : bytes -> res (IPNet * list (bytes * bytes)).
Variable values : list (bytes * bytes) -> res (list bytes).
Variable fam : family.
Hypothesis Hfam : fam = fam4 \/ fam = fam6.
Hypothesis HF : finder_ok fam find.

Definition starts_here (a : N) : Prop := fam_first fam <= a < fam_end fam /\
  forall ip n rec b, valid_ip ip -> addr ip = a -> find ip = Ok (n, rec) -> net_is n b -> base b = a.

Lemma starts_first ip : valid_ip ip -> addr ip = fam_first fam -> starts_here (addr ip).
Proof.
  intros V E. assert (fam_first fam < fam_end fam) as Lt by (destruct Hfam as [-> | ->]; reflexivity).
  split; [lia|]. intros ip' n rec b V' E' F Hn.
  destruct (fo_net _ _ HF ip' n rec V' ltac:(lia) F) as [L [b' [Hn' [Ha B]]]].
  rewrite <- (net_is_fun _ _ _ Hn Hn') in *.
  destruct (net_step fam Hfam n b Hn Ha L) as [last [_ [B1 _]]]. destruct B. lia.
Qed.

Lemma starts_next ip n rec b next : valid_ip ip -> starts_here (addr ip) -> find ip = Ok (n, rec) -> net_is n b ->
  base b + 2 ^ logsz b < fam_end fam -> addr next = base b + 2 ^ logsz b -> starts_here (addr next).
Proof.
  intros V [S1 S2] F Hn Lt En. pose proof (S2 _ _ _ _ V eq_refl F Hn) as Eb.
  pose proof (pow_pos (logsz b)) as P. split; [alia|].
  intros ip' n' rec' b' V' E' F' Hn'.
  destruct (fo_net _ _ HF ip' n' rec' V' ltac:(rewrite E'; alia) F') as [L' [c' [Hc' [Ha' B']]]].
  rewrite <- (net_is_fun _ _ _ Hn' Hc') in *. clear c' Hc'.
  destruct (N.eq_dec (base b') (addr next)) as [|Ne]; [assumption|exfalso].
  assert (in_block b' (addr next - 1)) as X1 by (destruct B'; unfold in_block; rewrite E' in *; alia).
  assert (in_block b (addr next - 1)) as X2 by (unfold in_block; rewrite En; alia).
  pose proof (fo_same _ _ HF ip ip' n n' rec rec' b b' (addr next - 1) V V' ltac:(lia) ltac:(rewrite E'; alia) F F' Hn Hn' X2 X1) as E.
  subst n'. rewrite <- (net_is_fun _ _ _ Hn Hn') in *. rewrite E' in B'. destruct B'. alia.
Qed.

Lemma build_ok_tiles fuel : forall ip rows, valid_ip ip -> starts_here (addr ip) -> build_loop find values fuel ip = Ok rows ->
  exists bs, Forall2 (fun r b => net_is (cidr r) b /\ length (nIP (cidr r)) = fam_len fam /\ exists ip rec, valid_ip ip /\ addr ip = base b /\
                        find ip = Ok (cidr r, rec) /\ values rec = Ok (fvals r)) rows bs /\ tiles (addr ip) bs (fam_end fam).
Proof.
  induction fuel as [|k IH]; intros ip rows V S H; [discriminate|]. cbn [build_loop] in H.
  destruct (find ip) as [[n info]| | |] eqn:F; cbn [bind] in *; try discriminate.
  destruct (values info) as [vs| | |] eqn:Va; cbn [bind] in *; try discriminate.
  destruct (fo_net _ _ HF ip n info V (proj1 S) F) as [L [b [Hn [Ha B]]]].
  destruct (net_step fam Hfam n b Hn Ha L) as [last [E1 [B1 [B2 C]]]]. rewrite E1 in H. cbn [bind] in H.
  pose proof (proj2 S _ _ _ _ V eq_refl F Hn) as Eb.
  destruct (IsAllMask last).
  - injection H as <-. exists [b]. split.
    + constructor; [|constructor]. cbn [cidr fvals]. split; [assumption|]. split; [assumption|]. exists ip, info. auto.
    + cbn [tiles]. rewrite <- Eb. auto.
  - destruct C as [Lt [next [E2 [Vn En]]]]. rewrite E2 in H. cbn [bind] in H.
    destruct (build_loop find values k next) as [rest| | |] eqn:E; cbn [bind] in *; try discriminate. injection H as <-.
    pose proof (starts_next _ _ _ _ _ V S F Hn Lt En) as Sn.
    destruct (IH next rest Vn Sn E) as [bs [F2 T]]. exists (b :: bs). split.
    + constructor; [|assumption]. cbn [cidr fvals]. split; [assumption|]. split; [assumption|]. exists ip, info. auto.
    + cbn [tiles]. split; [assumption|]. split; [assumption|]. rewrite <- Eb, <- En. assumption.
Qed.

Hypothesis HT : finder_total fam find.
Hypothesis HV : forall info, exists vs, values info = Ok vs.
Lemma build_total ip : valid_ip ip -> starts_here (addr ip) -> exists fuel rows, build_loop find values fuel ip = Ok rows.
Proof.
  intros V S. cut (forall ip, valid_ip ip -> starts_here (addr ip) -> exists n rec b, find ip = Ok (n, rec) /\
      length (nIP n) = fam_len fam /\ net_is n b /\ aligned b /\ base b = addr ip /\
      (addr ip + 2 ^ logsz b <> fam_end fam -> starts_here (addr ip + 2 ^ logsz b))).
  { intros G. destruct (build_tiles find values fam Hfam HV starts_here G ip V S) as [fuel [rows [bs [E _]]]]. eauto. }
  clear ip V S. intros ip V S. destruct (HT ip V (proj1 S)) as [n [rec F]].
  destruct (fo_net _ _ HF ip n rec V (proj1 S) F) as [L [b [Hn [Ha B]]]].
  pose proof (proj2 S _ _ _ _ V eq_refl F Hn) as Eb.
  exists n, rec, b. split; [assumption|]. split; [assumption|]. split; [assumption|]. split; [assumption|]. split; [assumption|].
  intros Ne. destruct (net_step fam Hfam n b Hn Ha L) as [last [E1 [B1 [B2 C]]]].
  destruct (IsAllMask last); [exfalso; apply Ne; rewrite <- Eb; exact C|]. destruct C as [Lt [next [E2 [Vn En]]]].
  rewrite <- Eb, <- En. exact (starts_next ip n rec b next V S F Hn Lt En).
Qed.
End Tile.

(** Property theorems C71: what the functions of ipnet do with the memory of their arguments
    and results; C03, second half: the argument of NextIP is not modified. *)
From Verif Require Import Base NetIP IpNet Share.
Open Scope nat_scope.

(** A slice that lies inside its array. *)
Definition wf (m : mem) (s : bslice) : Prop := bOff s + bLen s <= length (nth (bArr s) m []).
Definition ext (m m' : mem) : Prop := exists new, m' = m ++ new.
Lemma ext_refl m : ext m m.
Proof. exists []. symmetry. apply app_nil_r. Qed.
Lemma ext_trans a b c : ext a b -> ext b c -> ext a c.
Proof. intros [x ->] [y ->]. exists (x ++ y). symmetry. apply app_assoc. Qed.
Lemma ext_app m n : ext m (m ++ n).
Proof. exists n. reflexivity. Qed.
#[local] Hint Resolve ext_refl ext_app ext_trans : core.
Lemma ext_len m m' : ext m m' -> length m <= length m'.
Proof. intros [n ->]. rewrite app_length. lia. Qed.
Lemma wf_in m s : wf m s -> bArr s < length m \/ (bOff s = 0 /\ bLen s = 0).
Proof.
  unfold wf. intros H. destruct (lt_dec (bArr s) (length m)) as [L|L]; [auto|]. rewrite nth_overflow in H by lia. cbn in H. lia.
Qed.
Lemma wf_ext m m' s : wf m s -> ext m m' -> wf m' s.
Proof.
  intros H [n ->]. destruct (wf_in _ _ H) as [L|[A B]]; unfold wf in *; [rewrite app_nth1 by exact L; exact H|lia].
Qed.
Lemma rd_ext m m' s : wf m s -> ext m m' -> rd m' s = rd m s.
Proof.
  intros H [n ->]. destruct (wf_in _ _ H) as [L|[A B]]; unfold rd.
  - rewrite app_nth1 by exact L. reflexivity.
  - rewrite B. reflexivity.
Qed.
Lemma rd_length m s : wf m s -> length (rd m s) = bLen s.
Proof. unfold wf, rd. intros H. rewrite firstn_length, skipn_length. lia. Qed.
Lemma nth_new (m : mem) (a : bytes) : nth (length m) (m ++ [a]) [] = a.
Proof. rewrite app_nth2 by lia. rewrite Nat.sub_diag. reflexivity. Qed.
Lemma wf_new m a : wf (m ++ [a]) (mkB (length m) 0 (length a)).
Proof. unfold wf. cbn [bArr bOff bLen]. rewrite nth_new. lia. Qed.
Lemma rd_new m a : rd (m ++ [a]) (mkB (length m) 0 (length a)) = a.
Proof. unfold rd. cbn [bArr bOff bLen]. rewrite nth_new. cbn [skipn]. apply firstn_all. Qed.
Lemma upd_new m a f : upd (m ++ [a]) (length m) f = m ++ [f a].
Proof.
  unfold upd. rewrite nth_new. rewrite firstn_app, firstn_all, Nat.sub_diag. cbn [firstn]. rewrite app_nil_r.
  rewrite skipn_all2 by (rewrite app_length; cbn; lia). reflexivity.
Qed.
Lemma wf_nil m : wf m nilB.
Proof. unfold wf. cbn. lia. Qed.
Lemma rd_nil m : rd m nilB = [].
Proof. reflexivity. Qed.
Lemma skip2 (l : bytes) a b : skipn (a + b) l = skipn b (skipn a l).
Proof. revert l. induction a as [|a IH]; intros [|x l]; cbn [skipn Nat.add]; rewrite ?skipn_nil; auto. Qed.
Lemma wf_sub m s lo hi : wf m s -> lo <= hi -> hi <= bLen s -> wf m (subB s lo hi) /\ rd m (subB s lo hi) = firstn (hi - lo) (skipn lo (rd m s)).
Proof.
  unfold wf, rd, subB. cbn [bArr bOff bLen]. intros H A B. split; [lia|].
  set (a := nth _ m []) in *. rewrite skipn_firstn_comm, firstn_firstn. rewrite Nat.min_l by lia. f_equal.
  apply skip2.
Qed.

(* ---------- NextIP ---------- *)
Lemma next_aux_app a w w' : next_aux w = (false, w') -> next_aux (a ++ w) = (false, a ++ w').
Proof. intros H. induction a as [|b a IH]; [exact H|]. cbn [app next_aux]. rewrite IH. reflexivity. Qed.
Lemma skipn_nth (l : bytes) i b : nth_error l i = Some b -> skipn i l = b :: skipn (S i) l.
Proof. revert i. induction l as [|x l IH]; intros [|i] H; try discriminate; [injection H as ->; reflexivity|]. cbn [skipn]. apply IH, H. Qed.
Lemma over_one a i b : i < length a -> over a i [b] = firstn i a ++ b :: skipn (S i) a.
Proof. intros H. unfold over. cbn [app length]. replace (i + 1) with (S i) by lia. reflexivity. Qed.
Lemma over_length a i b : i + length b <= length a -> length (over a i b) = length a.
Proof. intros H. unfold over. rewrite !app_length, firstn_length, skipn_length. lia. Qed.
Lemma next_loop m ip v : wf m ip -> v = rd m ip -> forall i a, i <= length v -> length a = length v ->
  skipn i a = repeat x00 (length v - i) -> next_aux (skipn i v) = (true, repeat x00 (length v - i)) ->
  next_loopM i ip (mkB (length m) 0 (length v)) (m ++ [a]) = (m ++ [NextIP v], Ok tt).
Proof.
  intros W Ev. assert (forall a, rd (m ++ [a]) ip = v) as Rv by (intros a; rewrite (rd_ext m) by auto; auto).
  induction i as [|i IH]; intros a Hi La Sa Nx.
  { cbn [next_loopM]. unfold ret, NextIP. cbn [skipn] in *. rewrite Nx, Sa. reflexivity. }
  cbn [next_loopM]. unfold mbind at 1, getB. rewrite Rv.
  destruct (nth_error v i) as [b|] eqn:Eb; [|apply nth_error_None in Eb; lia].
  pose proof (skipn_nth _ _ _ Eb) as Sv. set (c := n2b (b2n b + 1)).
  assert (next_aux (skipn i v) = (byte_eqb c x00, c :: repeat x00 (length v - S i))) as N2 by (rewrite Sv; cbn [next_aux]; rewrite Nx; reflexivity).
  unfold mbind, putB. cbn [bLen bArr bOff Nat.add]. assert (i <? length v = true) as -> by (apply Nat.ltb_lt; lia).
  rewrite upd_new, over_one by lia. rewrite Sa.
  set (a2 := (firstn i a ++ c :: repeat x00 (length v - S i)) : bytes).
  assert (length (firstn i a) = i) as Lf by (rewrite firstn_length; lia).
  assert (skipn i a2 = c :: repeat x00 (length v - S i)) as Sa2.
  { unfold a2. rewrite skipn_app, skipn_all2 by lia. rewrite Lf, Nat.sub_diag. reflexivity. }
  assert (length a2 = length v) as La2 by (unfold a2; rewrite app_length; cbn [length]; rewrite repeat_length; lia).
  destruct (byte_eqb_spec c x00) as [Ec|Ec].
  - apply IH; try lia.
    + rewrite Sa2, Ec. replace (length v - i) with (S (length v - S i)) by lia. reflexivity.
    + rewrite N2, Ec. replace (length v - i) with (S (length v - S i)) by lia. reflexivity.
  - unfold copyB. cbn [bLen bArr bOff]. rewrite upd_new. f_equal. f_equal. f_equal.
    pose proof (wf_sub (m ++ [a2]) ip 0 i (wf_ext _ _ _ W (ext_app _ _)) ltac:(lia) ltac:(rewrite <- (rd_length _ _ W), <- Ev; lia)) as [_ Hs]. rewrite Hs.
    rewrite Rv, Nat.sub_0_r. cbn [skipn]. rewrite firstn_firstn, Nat.min_r by lia.
    unfold over. cbn [firstn app Nat.add]. rewrite firstn_length, Nat.min_l by lia. rewrite Sa2.
    unfold NextIP. replace (next_aux v) with (next_aux (firstn i v ++ skipn i v)) by (rewrite firstn_skipn; reflexivity). rewrite (next_aux_app _ _ _ N2). reflexivity.
Qed.
Lemma NextIP_len v : length (NextIP v) = length v.
Proof.
  unfold NextIP. induction v as [|b v IH]; [reflexivity|]. cbn [next_aux]. destruct (next_aux v) as [[] r]; cbn [snd] in *; cbn [length]; lia.
Qed.
Lemma NextIPM_eq m ip : wf m ip -> NextIPM ip m = (m ++ [NextIP (rd m ip)], Ok (mkB (length m) 0 (bLen ip))).
Proof.
  intros W. unfold NextIPM, mbind at 1, alloc. unfold mbind. rewrite repeat_length.
  pose proof (rd_length _ _ W) as L. rewrite <- L. rewrite (next_loop m ip (rd m ip) W eq_refl).
  - reflexivity.
  - lia.
  - rewrite repeat_length. lia.
  - rewrite Nat.sub_diag, skipn_all2 by (rewrite repeat_length; lia). reflexivity.
  - rewrite Nat.sub_diag, skipn_all. reflexivity.
Qed.

(* ---------- LastIP ---------- *)
Definition netv (m : mem) (n : netM) : IPNet := mkNet (rd m (mIP n)) (rd m (mMask n)).
Lemma zip_snoc (a b : bytes) x y i : nth_error a i = Some x -> nth_error b i = Some y ->
  zip_with or_not (firstn (S i) a) (firstn (S i) b) = zip_with or_not (firstn i a) (firstn i b) ++ [or_not x y].
Proof.
  revert b i. induction a as [|p a IH]; intros [|q b] [|i] A B; try discriminate.
  - injection A as ->. injection B as ->. reflexivity.
  - cbn [firstn zip_with app]. f_equal. apply IH; assumption.
Qed.
Lemma zip_len (a b : bytes) : length (zip_with or_not a b) = Nat.min (length a) (length b).
Proof. revert b. induction a as [|x a IH]; intros [|y b]; cbn [zip_with length]; try reflexivity. rewrite IH. reflexivity. Qed.
Lemma last_loop m ip mask v w : wf m ip -> wf m mask -> v = rd m ip -> w = rd m mask -> forall k i (a : bytes),
  i + k = length v -> i <= length w -> length a = length v ->
  firstn i a = zip_with or_not (firstn i v) (firstn i w) ->
  exists a', last_loopM k i ip mask (mkB (length m) 0 (length v)) (m ++ [a]) =
    (m ++ [a'], if length w <? length v then Panic else Ok tt) /\ (length v <= length w -> a' = zip_with or_not v w).
Proof.
  intros W1 W2 Ev Ew. assert (forall a, rd (m ++ [a]) ip = v) as Rv by (intros a; rewrite (rd_ext m) by auto; auto).
  assert (forall a, rd (m ++ [a]) mask = w) as Rw by (intros a; rewrite (rd_ext m) by auto; auto).
  induction k as [|k IH]; intros i a Hi Hw La Fa; cbn [last_loopM].
  { exists a. assert (length w <? length v = false) as -> by (apply Nat.ltb_ge; lia). split; [reflexivity|]. intros _.
    assert (i = length v) as -> by lia. rewrite <- (firstn_all a), La, Fa, firstn_all.
    clear - Hw. revert w Hw. induction v as [|x v IH]; intros [|y w] L; cbn [length firstn zip_with] in *; try reflexivity; try lia. rewrite IH by lia. reflexivity. }
  unfold mbind at 1, getB. rewrite Rv. destruct (nth_error v i) as [x|] eqn:Ex; [|apply nth_error_None in Ex; lia].
  unfold mbind at 1. rewrite Rw. destruct (nth_error w i) as [y|] eqn:Ey.
  2:{ apply nth_error_None in Ey. exists a. assert (length w <? length v = true) as -> by (apply Nat.ltb_lt; lia). split; [reflexivity|lia]. }
  unfold mbind, putB. cbn [bLen bArr bOff Nat.add]. assert (i <? length v = true) as -> by (apply Nat.ltb_lt; lia).
  rewrite upd_new, over_one by lia. apply IH; try lia.
  - assert (i < length w) by (apply nth_error_Some; congruence). lia.
  - rewrite app_length. cbn [length]. rewrite firstn_length, skipn_length. lia.
  - rewrite (zip_snoc _ _ _ _ _ Ex Ey), <- Fa. rewrite firstn_app, firstn_length, Nat.min_l by lia.
    replace (S i - i) with 1 by lia. rewrite (firstn_all2 (firstn i a)) by (rewrite firstn_length; lia). reflexivity.
Qed.
Lemma LastIPM_eq m n : wf m (mIP n) -> wf m (mMask n) ->
  exists a, LastIPM n m = (m ++ [a], let* _ := LastIP (netv m n) in Ok (mkB (length m) 0 (bLen (mIP n)))) /\ (forall b, LastIP (netv m n) = Ok b -> a = b /\ length b = bLen (mIP n)).
Proof.
  intros W1 W2. pose proof (rd_length _ _ W1) as L. pose proof (rd_length _ _ W2) as L2. unfold LastIPM, mbind at 1, alloc. unfold mbind. rewrite repeat_length, <- L.
  destruct (last_loop m _ _ _ _ W1 W2 eq_refl eq_refl (length (rd m (mIP n))) 0 (repeat x00 (length (rd m (mIP n))))) as (a & E & V); try lia; [apply repeat_length|reflexivity|].
  exists a. rewrite E. unfold LastIP, netv. cbn [nIP nMask]. destruct (Nat.ltb_spec (length (rd m (mMask n))) (length (rd m (mIP n)))) as [H|H]; cbn [bind].
  - split; [reflexivity|discriminate].
  - split; [reflexivity|]. intros b X. assert (zip_with or_not (rd m (mIP n)) (rd m (mMask n)) = b) as Eb by congruence. rewrite <- Eb. split; [apply V; exact H|]. rewrite zip_len. lia.
Qed.

(* ---------- code that only adds arrays ---------- *)
Definition does {A} (f : M A) (m : mem) (Q : mem -> res A -> Prop) : Prop := exists new x, f m = (m ++ new, x) /\ Q (m ++ new) x.
Lemma does_ret {A} (a : A) m (Q : mem -> res A -> Prop) : Q m (Ok a) -> does (ret a) m Q.
Proof. intros H. exists [], (Ok a). rewrite app_nil_r. auto. Qed.
Lemma does_conseq {A} (f : M A) m (P Q : mem -> res A -> Prop) : does f m P -> (forall m' x, ext m m' -> P m' x -> Q m' x) -> does f m Q.
Proof. intros (new & x & E & H) K. exists new, x. split; [exact E|]. apply K; [auto|exact H]. Qed.
Lemma does_bind {A B} (f : M A) (g : A -> M B) m (P : mem -> res A -> Prop) (Q : mem -> res B -> Prop) :
  does f m P -> (forall m' a, ext m m' -> P m' (Ok a) -> does (g a) m' Q) ->
  (forall m', ext m m' -> P m' Panic -> Q m' Panic) -> (forall m' e, ext m m' -> P m' (Err e) -> Q m' (Err e)) -> (forall m', ext m m' -> P m' OutOfFuel -> Q m' OutOfFuel) ->
  does (mbind f g) m Q.
Proof.
  intros (new & x & E & H) K K1 K2 K3. unfold does, mbind. rewrite E. destruct x as [a|e| |].
  - destruct (K _ a (ext_app _ _) H) as (new2 & y & E2 & H2). exists (new ++ new2), y. rewrite E2, <- app_assoc in *. auto.
  - exists new, (Err e). split; [reflexivity|]. apply K2; auto.
  - exists new, Panic. split; [reflexivity|]. apply K1; auto.
  - exists new, OutOfFuel. split; [reflexivity|]. apply K3; auto.
Qed.
(** [f] answers [a] for sure. *)
Lemma does_then {A B} (f : M A) (g : A -> M B) m (P : mem -> A -> Prop) (Q : mem -> res B -> Prop) :
  does f m (fun m' x => exists a, x = Ok a /\ P m' a) -> (forall m' a, ext m m' -> P m' a -> does (g a) m' Q) -> does (mbind f g) m Q.
Proof.
  intros D K. eapply does_bind; [exact D| | | |].
  - intros m' a X (a' & E & H). assert (a = a') as -> by congruence. apply K; assumption.
  - intros m' X (a & E & _). discriminate E.
  - intros m' e X (a & E & _). discriminate E.
  - intros m' X (a & E & _). discriminate E.
Qed.
Lemma does_next m ip : wf m ip -> does (NextIPM ip) m (fun m' x => exists s, x = Ok s /\
  (wf m' s /\ rd m' s = NextIP (rd m ip) /\ bArr s = length m /\ bLen s = bLen ip)).
Proof.
  intros W. eexists _, _. split; [apply NextIPM_eq, W|]. eexists. split; [reflexivity|].
  replace (bLen ip) with (length (NextIP (rd m ip))) by (rewrite NextIP_len; apply rd_length, W). split; [apply wf_new|]. split; [apply rd_new|]. split; reflexivity.
Qed.
Lemma does_last m n : wf m (mIP n) -> wf m (mMask n) -> does (LastIPM n) m (fun m' x =>
  match LastIP (netv m n) with
  | Ok b => exists s, x = Ok s /\ wf m' s /\ rd m' s = b /\ bArr s = length m /\ bLen s = bLen (mIP n)
  | _ => x = Panic
  end).
Proof.
  intros W1 W2. destruct (LastIPM_eq m n W1 W2) as (a & E & V). eexists _, _. split; [exact E|].
  destruct (LastIP (netv m n)) as [b|e| |] eqn:L; cbn [bind]; try (unfold LastIP in L; destruct (_ <? _); discriminate L); [|reflexivity].
  destruct (V _ eq_refl) as [-> Lb]. eexists. split; [reflexivity|]. rewrite <- Lb. split; [apply wf_new|]. split; [apply rd_new|]. split; reflexivity.
Qed.
Lemma does_alloc m b : does (alloc b) m (fun m' x => exists s, x = Ok s /\ (wf m' s /\ rd m' s = b /\ bArr s = length m /\ bLen s = length b)).
Proof. eexists _, _. split; [reflexivity|]. eexists. split; [reflexivity|]. split; [apply wf_new|]. split; [apply rd_new|]. split; reflexivity. Qed.
(** A slice that is one of the arguments or new. *)
Definition as16 (m : mem) (s t : bslice) : Prop := (bLen s = 16 /\ t = s) \/ (bLen s = 4 /\ bArr t = length m) \/ (bLen s <> 4 /\ bLen s <> 16 /\ t = nilB).
Lemma does_to16 m s : wf m s -> does (to16M s) m (fun m' x => exists t, x = Ok t /\ (wf m' t /\ rd m' t = to16 (rd m s) /\ as16 m s t /\ bLen t = length (to16 (rd m s)))).
Proof.
  intros W. pose proof (rd_length _ _ W) as L. unfold to16M, to16, as16. rewrite L.
  destruct (Nat.eqb_spec (bLen s) 4) as [E4|E4].
  - destruct (does_alloc m (v4prefix ++ rd m s)) as (new & x & Ex & t & Et & W' & R' & A' & L'). unfold does. rewrite E4. cbn [Nat.eqb]. eexists _, _. split; [exact Ex|].
    exists t. split; [exact Et|]. split; [exact W'|]. split; [exact R'|]. split; [auto|exact L'].
  - destruct (Nat.eqb_spec (bLen s) 16) as [E16|E16].
    + exists [], (Ok s). rewrite app_nil_r. split; [reflexivity|].
      exists s. split; [reflexivity|]. split; [exact W|]. split; [reflexivity|]. split; [auto|lia].
    + exists [], (Ok nilB). rewrite app_nil_r.
      split; [reflexivity|]. exists nilB. split; [reflexivity|]. split; [apply wf_nil|]. split; [reflexivity|]. split; [auto|reflexivity].
Qed.
Lemma does_less m a b : wf m a -> wf m b -> does (IPLessM a b) m (fun m' x => exists v, x = Ok v /\ v = IPLess (rd m a) (rd m b)).
Proof.
  intros Wa Wb. unfold IPLessM. pose proof (rd_length _ _ Wa) as La. pose proof (rd_length _ _ Wb) as Lb.
  eapply does_then with (P := fun m' l => wf m' l /\ rd m' l = if length (rd m a) <? length (rd m b) then to16 (rd m a) else rd m a).
  { rewrite La, Lb. destruct (bLen a <? bLen b).
    - eapply does_conseq; [apply does_to16, Wa|]. intros m' x _ (t & -> & W & R & _). exists t. auto.
    - apply does_ret. exists a. auto. }
  intros m1 l X1 [Wl Rl]. eapply does_then with (P := fun m' r => wf m' r /\ rd m' r = if length (rd m b) <? length (rd m a) then to16 (rd m b) else rd m b).
  { rewrite La, Lb. destruct (bLen b <? bLen a).
    - eapply does_conseq; [apply does_to16, (wf_ext _ _ _ Wb X1)|]. intros m' x _ (t & -> & W & R & _). exists t. rewrite R, (rd_ext _ _ _ Wb X1). auto.
    - apply does_ret. exists b. rewrite (rd_ext _ _ _ Wb X1). auto using (wf_ext _ _ _ Wb X1). }
  intros m2 r X2 [Wr Rr]. exists [], (Ok match lex_compare (rd m2 l) (rd m2 r) with Lt => true | _ => false end). rewrite app_nil_r. split; [reflexivity|].
  eexists. split; [reflexivity|]. rewrite (rd_ext _ _ _ Wl X2), Rl, Rr. reflexivity.
Qed.
Definition rangev (m : mem) (r : rangeM) : Range := mkRange (rd m (mStart r)) (rd m (mEnd r)).
Definition wfn (m : mem) (n : netM) : Prop := wf m (mIP n) /\ wf m (mMask n).
Definition wfr (m : mem) (r : rangeM) : Prop := wf m (mStart r) /\ wf m (mEnd r).
Lemma wfn_ext m m' n : wfn m n -> ext m m' -> wfn m' n.
Proof. intros [A B] X. split; eapply wf_ext; eauto. Qed.
Lemma wfr_ext m m' r : wfr m r -> ext m m' -> wfr m' r.
Proof. intros [A B] X. split; eapply wf_ext; eauto. Qed.
Lemma netv_ext m m' n : wfn m n -> ext m m' -> netv m' n = netv m n.
Proof. intros [A B] X. unfold netv. rewrite !(rd_ext m m') by assumption. reflexivity. Qed.
Lemma rangev_ext m m' r : wfr m r -> ext m m' -> rangev m' r = rangev m r.
Proof. intros [A B] X. unfold rangev. rewrite !(rd_ext m m') by assumption. reflexivity. Qed.

Lemma does_next_start m n : wfn m n -> does (NextStartM n) m (fun m' x =>
  match NextStart (netv m n) with
  | Ok b => exists s, x = Ok s /\ wf m' s /\ rd m' s = b /\ length m <= bArr s
  | _ => x = Panic
  end).
Proof.
  intros [W1 W2]. unfold NextStartM, NextStart. eapply does_bind; [apply does_last; assumption| | | |].
  - intros m1 s X H. destruct (LastIP (netv m n)) as [b|e| |]; cbn [bind]; try discriminate H. destruct H as (s' & E & W & R & A & L). assert (s = s') as -> by congruence.
    eapply does_conseq; [apply does_next, W|]. intros m2 x X2 (t & -> & Wt & Rt & At & _). exists t. rewrite Rt, R, At. pose proof (ext_len _ _ X). auto.
  - intros m1 X H. destruct (LastIP (netv m n)) as [b|e| |]; cbn [bind]; auto. destruct H as (s & E & _). discriminate E.
  - intros m1 e X H. destruct (LastIP (netv m n)) as [b|e'| |]; cbn [bind]; try discriminate H. destruct H as (s & E & _). discriminate E.
  - intros m1 X H. destruct (LastIP (netv m n)) as [b|e'| |]; cbn [bind]; try discriminate H. destruct H as (s & E & _). discriminate E.
Qed.
Lemma does_contains m s e ip : wf m s -> wf m e -> wf m ip -> does (ContainsM s e ip) m (fun m' x => exists v, x = Ok v /\ v = Contains (rd m s) (rd m e) (rd m ip)).
Proof.
  intros Ws We Wi. unfold ContainsM, Contains. eapply does_then; [apply does_less; assumption|]. cbn beta. intros m1 b X1 ->. destruct (IPLess (rd m ip) (rd m s)); cbn [negb andb].
  - apply does_ret. eauto.
  - eapply does_then; [apply does_next, (wf_ext _ _ _ We X1)|]. cbn beta. intros m2 t X2 (Wt & Rt & _).
    eapply does_conseq; [apply does_less; [exact (wf_ext _ _ _ Wi (ext_trans _ _ _ X1 X2))|exact Wt]|]. intros m3 x _ (v & -> & ->). eexists. split; [reflexivity|].
    rewrite Rt, (rd_ext _ _ _ We X1), (rd_ext _ _ _ Wi (ext_trans _ _ _ X1 X2)). reflexivity.
Qed.
Lemma does_apart m a b c d : wf m a -> wf m b -> wf m c -> wf m d ->
  does (apartM a b c d) m (fun m' x => exists v, x = Ok v /\ v = IPLess (rd m a) (rd m b) || IPLess (NextIP (rd m c)) (rd m d)).
Proof.
  intros Wa Wb Wc Wd. unfold apartM. eapply does_then; [apply does_less; assumption|]. cbn beta. intros m1 x X1 ->. destruct (IPLess (rd m a) (rd m b)); cbn [orb].
  - apply does_ret. eauto.
  - eapply does_then; [apply does_next, (wf_ext _ _ _ Wc X1)|]. cbn beta. intros m2 t X2 (Wt & Rt & _).
    eapply does_conseq; [apply does_less; [exact Wt|exact (wf_ext _ _ _ Wd (ext_trans _ _ _ X1 X2))]|]. intros m3 x _ (v & -> & ->). eexists. split; [reflexivity|].
    rewrite Rt, (rd_ext _ _ _ Wc X1), (rd_ext _ _ _ Wd (ext_trans _ _ _ X1 X2)). reflexivity.
Qed.
Lemma does_join m r r2 : wfr m r -> wfr m r2 -> does (JoinM r r2) m (fun m' x => exists p, x = Ok p /\
  ((fst p, rangev m (snd p)) = Join (rangev m r) (rangev m r2) /\ mStart (snd p) = mStart r /\ (mEnd (snd p) = mEnd r \/ mEnd (snd p) = mEnd r2))).
Proof.
  intros [W1 W2] [W3 W4]. unfold JoinM, Join. eapply does_then; [apply does_apart; assumption|]. cbn beta. intros m1 x X1 ->.
  unfold rangev at 2 3 4 5 6 7 8 9. cbn [rStart rEnd]. destruct (_ || _).
  - apply does_ret. eexists. split; [reflexivity|]. cbn [fst snd]. auto.
  - eapply does_then; [apply does_less; [exact (wf_ext _ _ _ W4 X1)|exact (wf_ext _ _ _ W2 X1)]|]. cbn beta. intros m2 x X2 ->. rewrite !(rd_ext _ _ _ W4 X1), !(rd_ext _ _ _ W2 X1).
    apply does_ret. eexists. split; [reflexivity|]. cbn [fst snd]. destruct (IPLess (rd m (mEnd r2)) (rd m (mEnd r))); cbn [negb mStart mEnd]; auto.
Qed.
Lemma does_common m r ip r2 : wfr m r -> wf m ip -> wfr m r2 -> does (CommonRangeM r ip r2) m (fun m' x => exists p, x = Ok p /\
  ((fst p, rangev m (snd p)) = CommonRange (rangev m r) (rd m ip) (rangev m r2) /\ (mStart (snd p) = mStart r \/ mStart (snd p) = mStart r2) /\ (mEnd (snd p) = mEnd r \/ mEnd (snd p) = mEnd r2))).
Proof.
  intros [W1 W2] Wi [W3 W4]. unfold CommonRangeM, CommonRange. eapply does_then; [apply does_apart; assumption|]. cbn beta. intros m1 x X1 ->. cbn [rangev rStart rEnd].
  destruct (IPLess (rd m (mEnd r2)) (rd m (mStart r)) || IPLess (NextIP (rd m (mEnd r))) (rd m (mStart r2))).
  - apply does_ret. eexists. split; [reflexivity|]. cbn [fst snd]. auto.
  - eapply does_then; [apply does_less; [exact (wf_ext _ _ _ W1 X1)|exact (wf_ext _ _ _ W3 X1)]|]. cbn beta. intros m2 x X2 ->. rewrite !(rd_ext _ _ _ W1 X1), !(rd_ext _ _ _ W3 X1).
    assert (ext m m2) as X by eauto.
    eapply does_then; [apply does_less; [exact (wf_ext _ _ _ W4 X)|exact (wf_ext _ _ _ W2 X)]|]. cbn beta. intros m3 x X3 ->. rewrite !(rd_ext _ _ _ W4 X), !(rd_ext _ _ _ W2 X).
    assert (ext m m3) as X' by eauto.
    set (s := if IPLess (rd m (mStart r)) (rd m (mStart r2)) then mStart r2 else mStart r). set (e := if IPLess (rd m (mEnd r2)) (rd m (mEnd r)) then mEnd r2 else mEnd r).
    assert (wf m s) as Ws by (unfold s; destruct (IPLess (rd m (mStart r)) (rd m (mStart r2))); assumption). assert (wf m e) as We by (unfold e; destruct (IPLess (rd m (mEnd r2)) (rd m (mEnd r))); assumption).
    replace (if IPLess (rd m (mStart r)) (rd m (mStart r2)) then rd m (mStart r2) else rd m (mStart r)) with (rd m s) by (unfold s; destruct (IPLess (rd m (mStart r)) (rd m (mStart r2))); reflexivity).
    replace (if IPLess (rd m (mEnd r2)) (rd m (mEnd r)) then rd m (mEnd r2) else rd m (mEnd r)) with (rd m e) by (unfold e; destruct (IPLess (rd m (mEnd r2)) (rd m (mEnd r))); reflexivity).
    eapply does_then; [apply does_contains; [exact (wf_ext _ _ _ Ws X')|exact (wf_ext _ _ _ We X')|exact (wf_ext _ _ _ Wi X')]|]. cbn beta. intros m4 c X4 ->. rewrite !(rd_ext m m3) by assumption.
    apply does_ret. eexists. split; [reflexivity|]. destruct (Contains (rd m s) (rd m e) (rd m ip)); cbn [negb fst snd mStart mEnd].
    + split; [reflexivity|]. unfold s, e. split; [destruct (IPLess (rd m (mStart r)) (rd m (mStart r2)))|destruct (IPLess (rd m (mEnd r2)) (rd m (mEnd r)))]; auto.
    + auto.
Qed.
(** In memory that did not exist before (or nil). *)
Definition own (m : mem) (s : bslice) : Prop := length m <= bArr s \/ bLen s = 0.
Lemma does_last16 m n : wfn m n -> does (let$ last := LastIPM n in to16M last) m (fun m' x =>
  match LastIP (netv m n) with
  | Ok b => exists t, x = Ok t /\ wf m' t /\ rd m' t = to16 b /\ own m t
  | _ => x = Panic
  end).
Proof.
  intros [W1 W2]. eapply does_bind; [apply does_last; assumption| | | |].
  - intros m1 s X H. destruct (LastIP (netv m n)) as [b|e| |]; try discriminate H. destruct H as (s' & E & W & R & A & L). assert (s = s') as -> by congruence.
    eapply does_conseq; [apply does_to16, W|]. intros m2 x X2 (t & -> & Wt & Rt & At & Lt). exists t. rewrite Rt, R. split; [reflexivity|]. split; [exact Wt|]. split; [reflexivity|].
    unfold own. pose proof (ext_len _ _ X). destruct At as [[_ ->]|[[_ ->]|(_ & _ & ->)]]; auto; lia.
  - intros m1 X H. destruct (LastIP (netv m n)) as [b|e| |]; auto. destruct H as (s & E & _). discriminate E.
  - intros m1 e X H. destruct (LastIP (netv m n)) as [b|e'| |]; try discriminate H. destruct H as (s & E & _). discriminate E.
  - intros m1 X H. destruct (LastIP (netv m n)) as [b|e'| |]; try discriminate H. destruct H as (s & E & _). discriminate E.
Qed.
Lemma mbind_assoc {A B C} (f : M A) (g : A -> M B) (h : B -> M C) m : mbind f (fun a => mbind (g a) h) m = mbind (mbind f g) h m.
Proof. unfold mbind. destruct (f m) as [m1 [a|e| |]]; reflexivity. Qed.
Lemma does_assoc {A B C} (f : M A) (g : A -> M B) (h : B -> M C) m Q : does (mbind (mbind f g) h) m Q -> does (mbind f (fun a => mbind (g a) h)) m Q.
Proof. intros (new & x & E & H). exists new, x. rewrite mbind_assoc. auto. Qed.
Lemma does_new_range m n : wfn m n -> does (NewRangeM n) m (fun m' x =>
  match NewRange (netv m n) with
  | Ok r => exists p, x = Ok p /\ wfr m' p /\ rangev m' p = r /\ (bLen (mIP n) = 16 -> mStart p = mIP n) /\ (bLen (mIP n) <> 16 -> own m (mStart p)) /\ own m (mEnd p)
  | _ => x = Panic
  end).
Proof.
  intros W. unfold NewRangeM, NewRange. eapply does_then; [apply does_to16, W|]. cbn beta. intros m1 s X1 (Ws & Rs & As & _). apply does_assoc.
  eapply does_bind; [apply does_last16, (wfn_ext _ _ _ W X1)| | | |]; rewrite (netv_ext _ _ _ W X1).
  - intros m2 e X2 H. destruct (LastIP (netv m n)) as [b|?| |]; cbn [bind]; try discriminate H. destruct H as (e' & E & We & Re & Oe). assert (e = e') as -> by congruence.
    apply does_ret. eexists. split; [reflexivity|]. cbn [mStart mEnd]. split; [split; [exact (wf_ext _ _ _ Ws X2)|exact We]|]. split.
    + unfold rangev. cbn [mStart mEnd]. rewrite Re, (rd_ext _ _ _ Ws X2), Rs. reflexivity.
    + unfold as16, own in *. pose proof (ext_len _ _ X1). split; [intros H16; destruct As as [[_ ->]|[[B _]|(_ & B & _)]]; [reflexivity|lia|lia]|].
      split; [intros H16; destruct As as [[B _]|[[_ ->]|(_ & _ & ->)]]; [lia|auto|auto]|]. destruct Oe as [?|?]; [left; lia|auto].
  - intros m2 X2 H. destruct (LastIP (netv m n)) as [b|?| |]; cbn [bind]; auto. destruct H as (? & E & _). discriminate E.
  - intros m2 e X2 H. destruct (LastIP (netv m n)) as [b|?| |]; cbn [bind]; try discriminate H. destruct H as (? & E & _). discriminate E.
  - intros m2 X2 H. destruct (LastIP (netv m n)) as [b|?| |]; cbn [bind]; try discriminate H. destruct H as (? & E & _). discriminate E.
Qed.
Lemma does_join_net m r n : wfr m r -> wfn m n -> does (JoinIPNetM r n) m (fun m' x =>
  match JoinIPNet (rangev m r) (netv m n) with
  | Ok (b, r') => exists p, x = Ok p /\ wfr m' (snd p) /\ fst p = b /\ rangev m' (snd p) = r' /\ mStart (snd p) = mStart r /\ (mEnd (snd p) = mEnd r \/ own m (mEnd (snd p)))
  | _ => x = Panic
  end).
Proof.
  intros [W1 W2] Wn. pose proof Wn as [W3 W4]. unfold JoinIPNetM, JoinIPNet. eapply does_then; [apply does_to16, W3|]. cbn beta. intros m1 s X1 (Ws & Rs & _).
  eapply does_then; [apply does_less; [exact Ws|exact (wf_ext _ _ _ W1 X1)]|]. cbn beta. intros m2 x X2 Ex. rewrite Rs, (rd_ext _ _ _ W1 X1) in Ex.
  assert (ext m m2) as X by eauto. cbn [rangev rStart rEnd netv nIP].
  eapply does_then with (P := fun _ v => v = IPLess (to16 (rd m (mIP n))) (rd m (mStart r)) || IPLess (NextIP (rd m (mEnd r))) (to16 (rd m (mIP n)))).
  { rewrite <- Ex. destruct x; [apply does_ret; eauto|]. eapply does_then; [apply does_next, (wf_ext _ _ _ W2 X)|]. cbn beta. intros m3 t X3 (Wt & Rt & _).
    eapply does_then; [apply does_to16, (wf_ext _ _ _ W3 (ext_trans _ _ _ X X3))|]. cbn beta. intros m4 u X4 (Wu & Ru & _).
    eapply does_conseq; [apply does_less; [exact (wf_ext _ _ _ Wt X4)|exact Wu]|]. intros m5 y _ (v & -> & ->). eexists. split; [reflexivity|].
    rewrite (rd_ext _ _ _ Wt X4), Rt, Ru, (rd_ext _ _ _ W2 X), (rd_ext _ _ _ W3 (ext_trans _ _ _ X X3)). reflexivity. }
  intros m3 v X3 Ev. rewrite <- Ev. assert (ext m m3) as Y by eauto. destruct v.
  { apply does_ret. eexists. split; [reflexivity|]. cbn [fst snd]. split; [split; eapply wf_ext; eauto|]. split; [reflexivity|]. split; [apply (rangev_ext m m3 r); [split; assumption|exact Y]|]. auto. }
  change (mkNet (rd m (mIP n)) (rd m (mMask n))) with (netv m n).
  apply does_assoc. eapply does_bind; [apply does_last16, (wfn_ext _ _ _ Wn Y)| | | |]; rewrite (netv_ext _ _ _ Wn Y).
  - intros m4 l X4 H. destruct (LastIP (netv m n)) as [b|?| |] eqn:EL; cbn [bind]; try discriminate H. destruct H as (l' & E & Wl & Rl & Ol). assert (l = l') as -> by congruence. clear E.
    assert (ext m m4) as Y4 by eauto. eapply does_then; [apply does_less; [exact Wl|exact (wf_ext _ _ _ W2 Y4)]|]. cbn beta. intros m5 y X5 ->. rewrite Rl, (rd_ext _ _ _ W2 Y4). assert (ext m m5) as Y5 by eauto.
    destruct (IPLess (to16 b) (rd m (mEnd r))); cbn [negb].
    + apply does_ret. eexists. split; [reflexivity|]. cbn [fst snd]. split; [split; eapply wf_ext; eauto|]. split; [reflexivity|]. split; [apply (rangev_ext m m5 r); [split; assumption|exact Y5]|]. auto.
    + apply does_assoc. eapply does_bind; [apply does_last16, (wfn_ext _ _ _ Wn Y5)| | | |]; rewrite (netv_ext _ _ _ Wn Y5), EL.
      * intros m6 k X6 (k' & E & Wk & Rk & Ok_). assert (k = k') as -> by congruence. apply does_ret. eexists. split; [reflexivity|]. cbn [fst snd mStart mEnd].
        assert (ext m m6) as Y6 by eauto. split; [split; [exact (wf_ext _ _ _ W1 Y6)|exact Wk]|]. split; [reflexivity|]. split; [unfold rangev; cbn [mStart mEnd]; rewrite Rk, (rd_ext _ _ _ W1 Y6); reflexivity|].
        split; [reflexivity|]. right. unfold own in *. pose proof (ext_len _ _ Y5). destruct Ok_; [left; lia|auto].
      * intros m6 X6 (? & E & _). discriminate E.
      * intros m6 e X6 (? & E & _). discriminate E.
      * intros m6 X6 (? & E & _). discriminate E.
  - intros m4 X4 H. destruct (LastIP (netv m n)) as [b|?| |]; cbn [bind]; auto. destruct H as (? & E & _). discriminate E.
  - intros m4 e X4 H. destruct (LastIP (netv m n)) as [b|?| |]; cbn [bind]; try discriminate H. destruct H as (? & E & _). discriminate E.
  - intros m4 X4 H. destruct (LastIP (netv m n)) as [b|?| |]; cbn [bind]; try discriminate H. destruct H as (? & E & _). discriminate E.
Qed.
Lemma does_to4 m s : wf m s -> does (to4M s) m (fun m' x => m' = m /\ exists t, x = Ok t /\ wf m t /\ rd m t = to4 (rd m s)).
Proof.
  intros W. pose proof (rd_length _ _ W) as L. unfold does, to4M, to4. exists []. rewrite app_nil_r, L. destruct (Nat.eqb_spec (bLen s) 4) as [E4|E4]; [eexists; split; [reflexivity|eauto]|].
  destruct (Nat.eqb_spec (bLen s) 16) as [E16|E16]; cbn [andb]; [|eexists; split; [reflexivity|]; split; [reflexivity|]; exists nilB; split; [reflexivity|]; split; [apply wf_nil|apply rd_nil]].
  destruct (bytes_eqb _ _); [|eexists; split; [reflexivity|]; split; [reflexivity|]; exists nilB; split; [reflexivity|]; split; [apply wf_nil|apply rd_nil]].
  eexists. split; [reflexivity|]. split; [reflexivity|]. eexists. split; [reflexivity|]. destruct (wf_sub m s 12 16 W) as [W' R']; [lia|lia|]. split; [exact W'|]. rewrite R'.
  apply firstn_all2. rewrite skipn_length. lia.
Qed.
Definition inner (ip mask : bytes) : bytes :=
  let ip := if (length mask =? 4) && (length ip =? 16) && bytes_eqb (firstn 12 ip) v4prefix then skipn 12 ip else ip in
  if length ip =? length mask then zip_with byte_and ip mask else [].
Definition innerM (ip mask : bslice) : M bslice := fun m =>
  let ip := if (bLen mask =? 4) && (bLen ip =? 16) && bytes_eqb (firstn 12 (rd m ip)) v4prefix then subB ip 12 16 else ip in
  if bLen ip =? bLen mask then alloc (zip_with byte_and (rd m ip) (rd m mask)) m else ret nilB m.
Lemma tail4 m s : wf m s -> bLen s = 16 -> wf m (subB s 12 16) /\ rd m (subB s 12 16) = skipn 12 (rd m s).
Proof.
  intros W L. destruct (wf_sub m s 12 16 W) as [A B]; [lia|lia|]. split; [exact A|]. rewrite B. apply firstn_all2. rewrite skipn_length, (rd_length _ _ W). lia.
Qed.
Lemma does_and m ip mask : wf m ip -> wf m mask ->
  exists new x, (if bLen ip =? bLen mask then alloc (zip_with byte_and (rd m ip) (rd m mask)) m else ret nilB m) = (m ++ new, x) /\
    exists t, x = Ok t /\ wf (m ++ new) t /\ rd (m ++ new) t = (if length (rd m ip) =? length (rd m mask) then zip_with byte_and (rd m ip) (rd m mask) else []) /\ own m t.
Proof.
  intros Wi Wm. rewrite (rd_length _ _ Wi), (rd_length _ _ Wm). destruct (Nat.eqb_spec (bLen ip) (bLen mask)) as [E|E].
  - destruct (does_alloc m (zip_with byte_and (rd m ip) (rd m mask))) as (new & x & Ex & t & Et & W' & R' & A' & _). exists new, x. split; [exact Ex|]. exists t. split; [exact Et|]. split; [exact W'|]. split; [exact R'|]. left. lia.
  - exists [], (Ok nilB). rewrite app_nil_r. split; [reflexivity|]. exists nilB. split; [reflexivity|]. split; [apply wf_nil|]. split; [apply rd_nil|]. right. reflexivity.
Qed.
Lemma does_inner m ip mask : wf m ip -> wf m mask -> does (innerM ip mask) m (fun m' x => exists t, x = Ok t /\ (wf m' t /\ rd m' t = inner (rd m ip) (rd m mask) /\ own m t)).
Proof.
  intros Wi Wm. unfold does, innerM, inner. cbv beta zeta. rewrite !(rd_length _ _ Wm), !(rd_length _ _ Wi).
  destruct ((bLen mask =? 4) && (bLen ip =? 16) && bytes_eqb (firstn 12 (rd m ip)) v4prefix) eqn:C.
  - apply andb_prop in C as [C _]. apply andb_prop in C as [_ C]. apply Nat.eqb_eq in C. destruct (tail4 _ _ Wi C) as [A B].
    destruct (does_and m _ mask A Wm) as (new & x & E & t & Et & Wt & Rt & Ot). exists new, x. split; [exact E|]. exists t. rewrite (rd_length _ _ Wm), B in Rt. auto.
  - destruct (does_and m ip mask Wi Wm) as (new & x & E & t & Et & Wt & Rt & Ot). exists new, x. split; [exact E|]. exists t. rewrite (rd_length _ _ Wm) in Rt. auto.
Qed.
Lemma does_mask m ip mask : wf m ip -> wf m mask -> does (maskM ip mask) m (fun m' x => exists t, x = Ok t /\ (wf m' t /\ rd m' t = ip_mask (rd m ip) (rd m mask) /\ own m t)).
Proof.
  intros Wi Wm.
  change (ip_mask (rd m ip) (rd m mask)) with (inner (rd m ip) (if (length (rd m mask) =? 16) && (length (rd m ip) =? 4) && all_ff (firstn 12 (rd m mask)) then skipn 12 (rd m mask) else rd m mask)).
  unfold does. change (maskM ip mask m) with (innerM ip (if (bLen mask =? 16) && (bLen ip =? 4) && all_ff (firstn 12 (rd m mask)) then subB mask 12 16 else mask) m).
  rewrite (rd_length _ _ Wm), (rd_length _ _ Wi).
  destruct ((bLen mask =? 16) && (bLen ip =? 4) && all_ff (firstn 12 (rd m mask))) eqn:C; [|apply does_inner; assumption].
  apply andb_prop in C as [C _]. apply andb_prop in C as [C _]. apply Nat.eqb_eq in C. destruct (tail4 _ _ Wm C) as [A B]. rewrite <- B. apply does_inner; assumption.
Qed.
Lemma does_cidr m ones bits : does (CIDRMaskM ones bits) m (fun m' x => exists t, x = Ok t /\ (wf m' t /\ rd m' t = CIDRMask ones bits /\
  ((bArr t = length m) \/ bLen t = 0) /\ ((bits = 128 -> 0 <= ones <= 128 -> bArr t = length m /\ length m' = S (length m))%Z))).
Proof.
  unfold does, CIDRMaskM. destruct ((((bits =? 32) || (bits =? 128)) && (0 <=? ones) && (ones <=? bits))%Z) eqn:C.
  - destruct (does_alloc m (CIDRMask ones bits)) as (new & x & Ex & t & Et & W' & R' & A' & _). exists [CIDRMask ones bits], x. injection Ex as En Ex. rewrite En in *. split; [unfold alloc; rewrite <- Ex; f_equal; exact En|].
    exists t. split; [exact Et|]. split; [exact W'|]. split; [exact R'|]. split; [auto|]. intros _ _. split; [exact A'|]. rewrite <- En, app_length. cbn. lia.
  - exists [], (Ok nilB). rewrite app_nil_r. split; [reflexivity|]. exists nilB. split; [reflexivity|]. split; [apply wf_nil|]. split; [unfold CIDRMask; rewrite C; apply rd_nil|].
    split; [auto|]. intros -> [? ?]. rewrite orb_true_r in C. cbn [andb] in C. lia.
Qed.
Lemma does_ip_net m addr mask : wf m addr -> does (IpNetM addr mask) m (fun m' x => exists n, x = Ok n /\
  (wfn m' n /\ netv m' n = IpNet (rd m addr) mask /\ own m (mIP n) /\ own m (mMask n) /\ (bArr (mIP n) <> bArr (mMask n) \/ bLen (mIP n) = 0 \/ bLen (mMask n) = 0))).
Proof.
  intros W. unfold IpNetM, IpNet. eapply does_then with (P := fun m' t => m' = m /\ wf m t /\ rd m t = to4 (rd m addr)).
  { eapply does_conseq; [apply does_to4, W|]. intros m' x _ [-> (t & -> & A & B)]. eauto. }
  intros m1 t X1 (-> & Wt & Rt). set (ip := if is_nil (to4 (rd m addr)) then to16 (rd m addr) else to4 (rd m addr)).
  eapply does_then with (P := fun m' u => bLen u = length ip).
  { unfold ip. rewrite <- Rt. pose proof (rd_length _ _ Wt) as Lt. destruct (rd m t) as [|c l] eqn:El; cbn [is_nil].
    - rewrite <- Lt. cbn [length Nat.eqb]. eapply does_conseq; [apply does_to16, W|]. intros m' x _ (u & -> & _ & _ & _ & L). eauto.
    - rewrite <- Lt. cbn [length Nat.eqb]. apply does_ret. exists t. split; [reflexivity|]. rewrite <- Lt. reflexivity. }
  intros m2 u X2 Lu. rewrite Lu. eapply does_then; [apply does_cidr|]. cbn beta. intros m3 c X3 (Wc & Rc & Ac & _).
  eapply does_then; [apply does_mask; [exact (wf_ext _ _ _ W (ext_trans _ _ _ X2 X3))|exact Wc]|]. cbn beta. intros m4 o X4 (Wo & Ro & Oo).
  apply does_ret. eexists. split; [reflexivity|]. cbn [mIP mMask]. split; [split; [exact Wo|exact (wf_ext _ _ _ Wc X4)]|].
  split; [unfold netv; cbn [mIP mMask]; rewrite Ro, Rc, (rd_ext _ _ _ Wc X4), Rc, (rd_ext _ _ _ W (ext_trans _ _ _ X2 X3)); reflexivity|].
  pose proof (ext_len _ _ X2). pose proof (ext_len _ _ X3). unfold own in *. split; [destruct Oo; auto; left; lia|]. split; [destruct Ac; auto; left; lia|].
  destruct Ac as [Ac|Ac]; [|auto]. destruct Oo as [Oo|Oo]; [|auto]. destruct (Nat.eq_dec (bLen c) 0) as [Z0|Z0]; [auto|].
  left. rewrite Ac. destruct (wf_in _ _ Wc) as [I|[_ I]]; [|lia]. lia.
Qed.

(* ---------- IPNets ---------- *)
(** Arrays in the order in which they were made, from [lo] on. *)
Fixpoint made (lo : nat) (l : list nat) : Prop := match l with [] => True | x :: r => lo <= x /\ made (S x) r end.
Lemma made_le lo lo' l : lo' <= lo -> made lo l -> made lo' l.
Proof. destruct l; cbn [made]; [auto|]. intros H [A B]. split; [lia|exact B]. Qed.
Lemma made_in lo l x : made lo l -> In x l -> lo <= x.
Proof. revert lo. induction l as [|y l IH]; intros lo H I; [destruct I|]. destruct H as [A B]. destruct I as [<-|I]; [exact A|]. specialize (IH _ B I). lia. Qed.
Lemma made_nodup lo l : made lo l -> NoDup l.
Proof. revert lo. induction l as [|y l IH]; intros lo H; [constructor|]. destruct H as [A B]. constructor; [|eapply IH, B]. intros I. pose proof (made_in _ _ _ B I). lia. Qed.
Definition slices (ns : list netM) : list bslice := flat_map (fun n => [mIP n; mMask n]) ns.
Lemma cidr_le start end_ : length start = 16 -> ipnets_cidr start end_ <= 128.
Proof.
  intros L. unfold ipnets_cidr. rewrite L. change (16 * 8) with 128.
  destruct (Nat.ltb_spec 128 (PrefixSameLength start (NextIP end_) + 1)) as [H|H].
  - destruct (Nat.ltb_spec (128 - SuffixZeroLength start) 0); lia.
  - destruct (Nat.ltb_spec (128 - SuffixZeroLength start) (PrefixSameLength start (NextIP end_) + 1)); lia.
Qed.
Lemma does_ipnets : forall k m start end_, wf m start -> wf m end_ -> bLen start = 16 -> does (ipnets_loopM k start end_) m (fun m' x =>
  match ipnets_loop k (rd m start) (rd m end_) with
  | Ok l => exists ns, x = Ok ns /\ map (netv m') ns = l /\ Forall (wfn m') ns /\ hd_error (slices ns) = Some start /\ made (length m) (map bArr (tl (slices ns)))
  | Err _ => False
  | Panic => x = Panic
  | OutOfFuel => x = OutOfFuel
  end).
Proof.
  induction k as [|k IH]; intros m start end_ Ws We L16; cbn [ipnets_loopM ipnets_loop].
  { exists [], OutOfFuel. rewrite app_nil_r. auto. }
  pose proof (rd_length _ _ Ws) as Ls. rewrite L16 in Ls.
  eapply does_then; [apply does_next, We|]. cbn beta. intros m1 nx X1 (Wn & Rn & _).
  eapply does_then with (P := fun m' c => m' = m1 /\ c = ipnets_cidr (rd m start) (rd m end_)).
  { exists []. eexists. rewrite app_nil_r. split; [reflexivity|]. eexists. split; [reflexivity|]. split; [reflexivity|].
    unfold ipnets_cidr. rewrite Rn, (rd_ext _ _ _ Ws X1), L16, Ls. reflexivity. }
  intros m1' c _ [-> ->]. rewrite Ls, L16. pose proof (cidr_le (rd m start) (rd m end_) Ls) as Lc. set (c := ipnets_cidr (rd m start) (rd m end_)) in *.
  eapply does_then; [apply does_cidr|]. cbn beta. intros m2 mk X2 (Wm & Rm & _ & Am). destruct Am as [Am Am2]; [reflexivity|lia|]. assert (ext m m2) as Y2 by eauto.
  set (n := mkNetM start mk). assert (wfn m2 n) as Wnn by (split; [exact (wf_ext _ _ _ Ws Y2)|exact Wm]).
  assert (netv m2 n = mkNet (rd m start) (CIDRMask (Z.of_nat c) (Z.of_nat 16 * 8))) as Vn by (unfold netv, n; cbn [mIP mMask]; rewrite Rm, (rd_ext _ _ _ Ws Y2); reflexivity).
  rewrite <- Vn. pose proof (ext_len _ _ X1) as G1. eapply does_bind; [apply does_last; apply Wnn| | | |].
  - intros m3 la X3 H. destruct (LastIP (netv m2 n)) as [b|?| |]; cbn [bind]; try discriminate H. destruct H as (la' & E & Wl & Rl & Al & Ll). assert (la = la') as -> by congruence. clear E.
    assert (ext m m3) as Y3 by eauto. eapply does_then; [apply does_less; [exact Wl|exact (wf_ext _ _ _ We Y3)]|]. cbn beta. intros m4 y X4 ->. rewrite Rl, (rd_ext _ _ _ We Y3). assert (ext m m4) as Y4 by eauto.
    destruct (IPLess b (rd m end_)); cbn [negb].
    + eapply does_then; [apply does_next, (wf_ext _ _ _ Wl X4)|]. cbn beta. intros m5 st X5 (Wst & Rst & Ast & Lst). assert (ext m m5) as Y5 by eauto. rewrite (rd_ext _ _ _ Wl X4), Rl in Rst.
      assert (bLen st = 16) as Lst16 by (rewrite Lst, Ll; exact L16).
      eapply does_bind; [apply (IH m5 st end_ Wst (wf_ext _ _ _ We Y5) Lst16)| | | |]; rewrite Rst, (rd_ext _ _ _ We Y5).
      * intros m6 rest X6 H. destruct (ipnets_loop k (NextIP b) (rd m end_)) as [l|?| |]; cbn [bind]; try discriminate H; [|destruct H]. destruct H as (ns & E & V & Wf & Hd & Md). assert (rest = ns) as -> by congruence.
        assert (ext m2 m6) as Z6 by (apply (ext_trans _ m3); [exact X3|]; apply (ext_trans _ m4); [exact X4|]; eauto).
        apply does_ret. eexists. split; [reflexivity|]. split; [cbn [map]; rewrite V, (netv_ext m2 m6) by assumption; reflexivity|]. split; [constructor; [exact (wfn_ext _ _ _ Wnn Z6)|exact Wf]|].
        split; [reflexivity|]. cbn [slices flat_map n mIP mMask app tl map made]. change (flat_map _ ns) with (slices ns). rewrite Am. split; [lia|].
        destruct (slices ns) as [|s0 sl]; [discriminate Hd|]. cbn [hd_error tl map] in *. injection Hd as ->. cbn [made]. rewrite Ast. pose proof (ext_len _ _ X3). pose proof (ext_len _ _ X4). split; [lia|].
        eapply made_le; [|exact Md]. rewrite <- Ast. destruct (wf_in _ _ Wst) as [I|[_ I]]; [exact I|lia].
      * intros m6 X6 H. destruct (ipnets_loop k (NextIP b) (rd m end_)) as [l|?| |]; cbn [bind]; first [exact H | discriminate H | contradiction | (destruct H as (? & E & _); discriminate E)].
      * intros m6 e X6 H. destruct (ipnets_loop k (NextIP b) (rd m end_)) as [l|?| |]; cbn [bind]; first [exact H | discriminate H | contradiction | (destruct H as (? & E & _); discriminate E)].
      * intros m6 X6 H. destruct (ipnets_loop k (NextIP b) (rd m end_)) as [l|?| |]; cbn [bind]; first [exact H | discriminate H | contradiction | (destruct H as (? & E & _); discriminate E)].
    + assert (ext m2 m4) as Z4 by eauto.
      apply does_ret. eexists. split; [reflexivity|]. split; [cbn [map]; rewrite (netv_ext m2 m4) by assumption; reflexivity|]. split; [constructor; [exact (wfn_ext _ _ _ Wnn Z4)|constructor]|].
      split; [reflexivity|]. cbn. rewrite Am. split; [lia|exact I].
  - intros m3 X3 H. destruct (LastIP (netv m2 n)) as [b|?| |] eqn:EL; cbn [bind]; [destruct H as (? & E & _); discriminate E| |reflexivity|]; unfold LastIP in EL; destruct (_ <? _); discriminate EL.
  - intros m3 e X3 H. destruct (LastIP (netv m2 n)) as [b|?| |]; cbn [bind]; try discriminate H. destruct H as (? & E & _). discriminate E.
  - intros m3 X3 H. destruct (LastIP (netv m2 n)) as [b|?| |]; cbn [bind]; try discriminate H. destruct H as (? & E & _). discriminate E.
Qed.

(* ------------------------------------------------------------------ *)
(** Every slice that existed before reads as before. *)
Definition kept (m m' : mem) : Prop := forall s, wf m s -> wf m' s /\ rd m' s = rd m s.
(** What a call leaves: memory in which everything that existed is as it was, and a result. *)
Definition outcome {A} (f : M A) (m : mem) (R : mem -> res A -> Prop) : Prop := exists m' x, f m = (m', x) /\ kept m m' /\ R m' x.
Lemma does_outcome {A} (f : M A) m (Q : mem -> res A -> Prop) : does f m Q -> outcome f m Q.
Proof. intros (new & x & E & H). exists (m ++ new), x. split; [exact E|]. split; [|exact H]. intros s W. split; [eapply wf_ext; eauto|apply rd_ext; auto]. Qed.

(** C03: NextIP answers in new memory; its argument (and everything else) is not modified. *)
Theorem C03_argument_kept : forall m ip, wf m ip ->
  outcome (NextIPM ip) m (fun m' x => exists s, x = Ok s /\ rd m' s = NextIP (rd m ip) /\ length m <= bArr s).
Proof.
  intros m ip W. apply does_outcome. eapply does_conseq; [apply does_next, W|]. intros m' x _ (s & -> & _ & R & A & _). exists s. split; [reflexivity|]. split; [exact R|lia].
Qed.
Print Assumptions C03_argument_kept.

(** C71: the functions on addresses and networks give what IpNet.v says, leave all memory as
    it is and answer in new memory. *)
Theorem C71_addresses : forall m,
  (forall n, wfn m n -> outcome (LastIPM n) m (fun m' x =>
     match LastIP (netv m n) with Ok b => exists s, x = Ok s /\ rd m' s = b /\ length m <= bArr s | _ => x = Panic end)) /\
  (forall n, wfn m n -> outcome (NextStartM n) m (fun m' x =>
     match NextStart (netv m n) with Ok b => exists s, x = Ok s /\ rd m' s = b /\ length m <= bArr s | _ => x = Panic end)) /\
  (forall addr mask, wf m addr -> outcome (IpNetM addr mask) m (fun m' x => exists n, x = Ok n /\ wfn m' n /\ netv m' n = IpNet (rd m addr) mask /\ own m (mIP n) /\ own m (mMask n))) /\
  (forall a b, wf m a -> wf m b -> outcome (IPLessM a b) m (fun _ x => x = Ok (IPLess (rd m a) (rd m b)))) /\
  (forall s e ip, wf m s -> wf m e -> wf m ip -> outcome (ContainsM s e ip) m (fun _ x => x = Ok (Contains (rd m s) (rd m e) (rd m ip)))).
Proof.
  intros m. split; [|split; [|split; [|split]]].
  - intros n [A B]. apply does_outcome. eapply does_conseq; [apply does_last; assumption|]. cbn beta. intros m' x _ H. destruct (LastIP (netv m n)); auto. destruct H as (s & -> & _ & R & Ar & _). exists s. split; [reflexivity|]. split; [exact R|lia].
  - intros n W. apply does_outcome. eapply does_conseq; [apply does_next_start, W|]. cbn beta. intros m' x _ H. destruct (NextStart (netv m n)); auto. destruct H as (s & -> & _ & R & Ar). eauto.
  - intros addr mask W. apply does_outcome. eapply does_conseq; [apply does_ip_net, W|]. cbn beta. intros m' x _ (n & -> & Wn & V & O1 & O2 & _). eauto 10.
  - intros a b Wa Wb. apply does_outcome. eapply does_conseq; [apply does_less; assumption|]. cbn beta. intros m' x _ (v & -> & ->). reflexivity.
  - intros s e ip Ws We Wi. apply does_outcome. eapply does_conseq; [apply does_contains; assumption|]. cbn beta. intros m' x _ (v & -> & ->). reflexivity.
Qed.
Print Assumptions C71_addresses.

(** C71: ranges.  NewRange keeps the slice of a 16-byte network as its Start; Join and
    CommonRange make the receiver hold slices of the other range; only JoinIPNet copies. *)
Theorem C71_ranges : forall m,
  (forall n, wfn m n -> outcome (NewRangeM n) m (fun m' x =>
     match NewRange (netv m n) with
     | Ok r => exists p, x = Ok p /\ wfr m' p /\ rangev m' p = r /\ (bLen (mIP n) = 16 -> mStart p = mIP n) /\ (bLen (mIP n) <> 16 -> own m (mStart p)) /\ own m (mEnd p)
     | _ => x = Panic
     end)) /\
  (forall r r2, wfr m r -> wfr m r2 -> outcome (JoinM r r2) m (fun m' x => exists b r', x = Ok (b, r') /\
     Join (rangev m r) (rangev m r2) = (b, rangev m' r') /\ mStart r' = mStart r /\ (mEnd r' = mEnd r \/ mEnd r' = mEnd r2))) /\
  (forall r ip r2, wfr m r -> wf m ip -> wfr m r2 -> outcome (CommonRangeM r ip r2) m (fun m' x => exists b r', x = Ok (b, r') /\
     CommonRange (rangev m r) (rd m ip) (rangev m r2) = (b, rangev m' r') /\ (mStart r' = mStart r \/ mStart r' = mStart r2) /\ (mEnd r' = mEnd r \/ mEnd r' = mEnd r2))) /\
  (forall r n, wfr m r -> wfn m n -> outcome (JoinIPNetM r n) m (fun m' x =>
     match JoinIPNet (rangev m r) (netv m n) with
     | Ok (b, v) => exists r', x = Ok (b, r') /\ wfr m' r' /\ rangev m' r' = v /\ mStart r' = mStart r /\ (mEnd r' = mEnd r \/ own m (mEnd r'))
     | _ => x = Panic
     end)).
Proof.
  intros m. split; [|split; [|split]].
  - intros n W. apply does_outcome. apply does_new_range, W.
  - intros r r2 W W2. apply does_outcome. eapply does_conseq; [apply does_join; assumption|]. cbn beta. intros m' x X ([b r'] & -> & E & S & F). cbn [fst snd] in *. exists b, r'.
    split; [reflexivity|]. split; [|auto]. rewrite <- E. f_equal. symmetry. apply rangev_ext; [|exact X]. destruct W, W2. split; [rewrite S; assumption|destruct F as [->| ->]; assumption].
  - intros r ip r2 W Wi W2. apply does_outcome. eapply does_conseq; [apply does_common; assumption|]. cbn beta. intros m' x X ([b r'] & -> & E & S & F). cbn [fst snd] in *. exists b, r'.
    split; [reflexivity|]. split; [|auto]. rewrite <- E. f_equal. symmetry. apply rangev_ext; [|exact X]. destruct W, W2. split; [destruct S as [->| ->]; assumption|destruct F as [->| ->]; assumption].
  - intros r n W Wn. apply does_outcome. eapply does_conseq; [apply does_join_net; assumption|]. cbn beta. intros m' x _ H. destruct (JoinIPNet (rangev m r) (netv m n)) as [[b v]|?| |]; auto.
    destruct H as ([b' r'] & -> & A & B & C & D & E). cbn [fst snd] in *. subst b'. exists r'. auto.
Qed.
Print Assumptions C71_ranges.

(** C71: the networks of a range.  The first one holds the range's own Start when that has 16
    bytes; all other addresses and all masks are in new arrays, each in its own. *)
Definition ip_len (s : bslice) : Prop := bLen s = 4 \/ bLen s = 16.
Theorem C71_ipnets : forall m r, wfr m r -> ip_len (mStart r) -> ip_len (mEnd r) ->
  outcome (IPNetsM r) m (fun m' x =>
    match IPNets (rangev m r) with
    | Ok l => exists first rest, x = Ok (first :: rest) /\ map (netv m') (first :: rest) = l /\ Forall (wfn m') (first :: rest) /\
        (bLen (mStart r) = 16 -> mIP first = mStart r) /\ (bLen (mStart r) = 4 -> length m <= bArr (mIP first)) /\
        Forall (fun s => length m <= bArr s) (mMask first :: slices rest) /\ NoDup (map bArr (slices (first :: rest)))
    | Err _ => False
    | Panic => x = Panic
    | OutOfFuel => x = OutOfFuel
    end).
Proof.
  intros m r [W1 W2] L1 L2. apply does_outcome. unfold IPNetsM, IPNets. cbn [rangev rStart rEnd].
  eapply does_then; [apply does_to16, W1|]. cbn beta. intros m1 s X1 (Ws & Rs & As & Ls).
  eapply does_then; [apply does_to16, (wf_ext _ _ _ W2 X1)|]. cbn beta. intros m2 e X2 (We & Re & _ & _). rewrite (rd_ext _ _ _ W2 X1) in Re.
  assert (bLen s = 16) as L16.
  { rewrite Ls. unfold to16. rewrite (rd_length _ _ W1). destruct L1 as [E|E]; rewrite E; cbn [Nat.eqb]; [rewrite app_length, (rd_length _ _ W1), E; reflexivity|rewrite (rd_length _ _ W1); exact E]. }
  eapply does_conseq; [apply (does_ipnets 257 m2 s e (wf_ext _ _ _ Ws X2) We L16)|]. cbn beta. intros m3 x X3 H. rewrite (rd_ext _ _ _ Ws X2), Rs, Re in H.
  destruct (ipnets_loop 257 _ _) as [l|?| |]; auto. destruct H as (ns & -> & V & Wf & Hd & Md). destruct ns as [|n ns]; [discriminate Hd|]. cbn [slices flat_map app hd_error tl] in Hd, Md. change (flat_map _ ns) with (slices ns) in Md.
  assert (mIP n = s) as En by congruence. exists n, ns. split; [reflexivity|]. split; [exact V|]. split; [exact Wf|].
  pose proof (ext_len _ _ X1) as G1. pose proof (ext_len _ _ X2) as G2.
  assert (bArr s < length m2) as Ls2 by (destruct (wf_in _ _ (wf_ext _ _ _ Ws X2)) as [I|[_ I]]; lia).
  split; [|split; [|split]].
  - intros E. rewrite En. destruct As as [[_ A]|[[A _]|(_ & A & _)]]; [exact A|lia|lia].
  - intros E. rewrite En. destruct As as [[A _]|[[_ A]|(A & _)]]; lia.
  - apply Forall_forall. intros t I. apply (in_map bArr) in I. cbn [map] in Md. pose proof (made_in _ _ _ Md I). lia.
  - cbn [slices flat_map app map]. change (flat_map _ ns) with (slices ns). rewrite En. constructor; [|exact (made_nodup _ _ Md)]. intros I. pose proof (made_in _ _ _ Md I). lia.
Qed.
Print Assumptions C71_ipnets.

(** C71: what happens when a caller stores into the results of IPNets (s[i] = b): a store into
    the first address changes the range (finding), any other store changes nothing but the
    slice stored into. *)
Definition store (m : mem) (s : bslice) (i : nat) (b : byte) : mem := fst (putB s i b m).
Lemma store_other m s i b t : wf m s -> bArr s <> bArr t -> rd (store m s i b) t = rd m t.
Proof.
  intros W N. unfold store, putB. destruct (Nat.ltb_spec i (bLen s)) as [L|L]; [|reflexivity]. cbn [fst]. unfold rd, upd.
  destruct (wf_in _ _ W) as [I|[_ I]]; [|lia]. f_equal. f_equal.
  destruct (lt_dec (bArr t) (bArr s)) as [H|H].
  - rewrite app_nth1 by (rewrite firstn_length; lia). clear - H. revert m H. generalize (bArr s) (bArr t). intros k j. revert k. induction j as [|j IH]; intros [|k] [|x m] H; cbn [firstn nth]; try lia; try reflexivity. apply IH. lia.
  - rewrite app_nth2 by (rewrite firstn_length; lia). rewrite firstn_length, Nat.min_l by lia. destruct (bArr t - bArr s) as [|d] eqn:Ed; [lia|]. cbn [nth].
    replace (bArr t) with (S (bArr s) + d) by lia. clear. revert d. generalize (S (bArr s)). intros k. revert m. induction k as [|k IH]; intros [|x m] d; cbn [skipn nth Nat.add]; try reflexivity; [destruct d; reflexivity|]. apply IH.
Qed.
Lemma store_same m s i b : wf m s -> i < bLen s -> rd (store m s i b) s = over (rd m s) i [b].
Proof.
  intros W L. unfold store, putB. assert (i <? bLen s = true) as -> by (apply Nat.ltb_lt; exact L). cbn [fst]. destruct (wf_in _ _ W) as [I|[_ I]]; [|lia].
  unfold wf in W. unfold rd, upd. rewrite app_nth2 by (rewrite firstn_length; lia). rewrite firstn_length, Nat.min_l by lia. rewrite Nat.sub_diag. cbn [nth]. set (a := nth (bArr s) m []) in *.
  unfold over. cbn [length app]. set (o := bOff s) in *. set (n := bLen s) in *.
  rewrite skipn_app, firstn_length, Nat.min_l by lia. replace (o - (o + i)) with 0 by lia. cbn [skipn].
  rewrite skipn_firstn_comm. replace (o + i - o) with i by lia. rewrite firstn_app, firstn_firstn, firstn_length, skipn_length, Nat.min_r by lia.
  rewrite firstn_firstn, Nat.min_l by lia. f_equal; [rewrite Nat.min_l by lia; reflexivity|].
  rewrite skipn_firstn_comm, <- skip2. replace (n - i) with (S (n - (i + 1))) by lia. cbn [firstn]. replace (o + i + 1) with (o + (i + 1)) by lia. reflexivity.
Qed.
Theorem C71_ipnets_stores : forall m r m' first rest, wfr m r -> ip_len (mStart r) -> ip_len (mEnd r) -> IPNetsM r m = (m', Ok (first :: rest)) ->
  (bLen (mStart r) = 16 -> forall i b, i < 16 -> rangev (store m' (mIP first) i b) r = mkRange (over (rd m (mStart r)) i [b]) (if bArr (mEnd r) =? bArr (mStart r) then rd (store m' (mIP first) i b) (mEnd r) else rd m (mEnd r))) /\
  (bLen (mStart r) = 4 -> forall i b, rangev (store m' (mIP first) i b) r = rangev m r) /\
  (forall s i b, In s (mMask first :: slices rest) ->
     (forall t, wf m t -> rd (store m' s i b) t = rd m t) /\ (forall t, In t (slices (first :: rest)) -> t <> s -> rd (store m' s i b) t = rd m' t)).
Proof.
  intros m r m' first rest W L1 L2 E. destruct (C71_ipnets m r W L1 L2) as (m1 & x & E1 & K & H). assert (m1 = m') as -> by congruence. assert (x = Ok (first :: rest)) as -> by congruence.
  destruct (IPNets (rangev m r)) as [l|?| |]; try discriminate H; [|destruct H]. destruct H as (f2 & r2 & Ex & V & Wf & S16 & S4 & Fn & ND). assert (f2 = first) as -> by congruence. assert (r2 = rest) as -> by congruence.
  destruct W as [W1 W2]. destruct (K _ W1) as [K1 R1]. destruct (K _ W2) as [K2 R2].
  assert (forall s, In s (slices (first :: rest)) -> wf m' s) as Wsl.
  { intros s I. unfold slices in I. apply in_flat_map in I as (n & In_ & I). rewrite Forall_forall in Wf. destruct (Wf _ In_) as [A B]. destruct I as [<-|[<-|[]]]; assumption. }
  split; [|split].
  - intros E16 i b Li. rewrite (S16 E16). unfold rangev. rewrite store_same by (auto; lia). rewrite R1. f_equal. destruct (Nat.eqb_spec (bArr (mEnd r)) (bArr (mStart r))) as [Q|Q]; [reflexivity|]. rewrite store_other by auto. exact R2.
  - intros E4 i b. specialize (S4 E4). assert (wf m' (mIP first)) as Wi by (apply Wsl; left; reflexivity).
    assert (forall t, wf m t -> bLen t <> 0 -> bArr (mIP first) <> bArr t) as N by (intros t Wt Nt; destruct (wf_in _ _ Wt) as [?|[_ ?]]; lia).
    unfold rangev. rewrite !store_other by (auto; apply N; auto; unfold ip_len in *; lia). rewrite R1, R2. reflexivity.
  - intros s i b I. assert (wf m' s) as Ws by (apply Wsl; right; exact I). rewrite Forall_forall in Fn. pose proof (Fn _ I) as Ls. split.
    + intros t Wt. destruct (K _ Wt) as [_ Rt]. destruct (wf_in _ _ Wt) as [J|[_ J]]; [rewrite store_other by (auto; lia); exact Rt|]. unfold rd. rewrite J. reflexivity.
    + intros t J N. apply store_other; [exact Ws|]. intros Q. apply N. assert (In s (slices (first :: rest))) as I' by (right; exact I).
      clear - ND J I' Q. induction (slices (first :: rest)) as [|y ys IH]; [destruct J|]. cbn [map] in ND. inversion ND as [|? ? N1 N2]; subst. destruct J as [->|J], I' as [->|I']; auto.
      * exfalso. apply N1. rewrite <- Q. apply in_map, I'.
      * exfalso. apply N1. rewrite Q. apply in_map, J.
Qed.
Print Assumptions C71_ipnets_stores.
(** A case: the range 1.0.0.1 - 1.0.0.5 in 16-byte spelling. *)
Definition case_mem : mem := [IPv4 x01 x00 x00 x01; IPv4 x01 x00 x00 x05].
Definition case_range : rangeM := mkRangeM (mkB 0 0 16) (mkB 1 0 16).
Example C71_case : wfr case_mem case_range /\ ip_len (mStart case_range) /\ ip_len (mEnd case_range) /\
  exists m' n1 n2 n3, IPNetsM case_range case_mem = (m', Ok [n1; n2; n3]) /\
    rd m' (mIP n1) = IPv4 x01 x00 x00 x01 /\ rd m' (mIP n2) = IPv4 x01 x00 x00 x02 /\ rd m' (mIP n3) = IPv4 x01 x00 x00 x04 /\
    (* a store into the first address moves the range, one into the second does not *)
    rangev (store m' (mIP n1) 15 x03) case_range = mkRange (IPv4 x01 x00 x00 x03) (IPv4 x01 x00 x00 x05) /\
    rangev (store m' (mIP n2) 15 x03) case_range = mkRange (IPv4 x01 x00 x00 x01) (IPv4 x01 x00 x00 x05).
Proof.
  split; [split; vm_compute; lia|]. split; [right; reflexivity|]. split; [right; reflexivity|].
  assert (match IPNetsM case_range case_mem with
    | (m', Ok [n1; n2; n3]) => Some (rd m' (mIP n1), rd m' (mIP n2), rd m' (mIP n3), rangev (store m' (mIP n1) 15 x03) case_range, rangev (store m' (mIP n2) 15 x03) case_range)
    | _ => None end = Some (IPv4 x01 x00 x00 x01, IPv4 x01 x00 x00 x02, IPv4 x01 x00 x00 x04, mkRange (IPv4 x01 x00 x00 x03) (IPv4 x01 x00 x00 x05), mkRange (IPv4 x01 x00 x00 x01) (IPv4 x01 x00 x00 x05))) as R by (vm_compute; reflexivity).
  destruct (IPNetsM case_range case_mem) as [m' [[|n1 [|n2 [|n3 [|n4 l]]]]|e| |]]; try discriminate R.
  exists m', n1, n2, n3. split; [reflexivity|]. repeat split; congruence.
Qed.

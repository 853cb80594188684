(** Property theorems C69: requests that the HTTP server serves at the same time.  The machine
    (threads, accesses, schedules) is in Conc.v; [http_get] (Server.v) is one request served
    alone. *)
From Verif Require Import Base NetIP NetText Spec Inf Ipdb SpecIpdb Alias Json Server Facade PropsIpdb PropsFacade PropsFacade2 PropsFile PropsConvert PropsAlias Conc.
Open Scope nat_scope.

(** A predicate transformer for one thread: with at most [n] accesses, owning at most one
    object that nobody else can reach, against memory that is that of [s0] elsewhere. *)
Fixpoint sat (s0 : Live) {A} (n : nat) (own : option (nat * WInfo)) (p : prog A)
    (Q : nat -> option (nat * WInfo) -> res A -> Prop) {struct p} : Prop :=
  match p with
  | Ret r => Q n own r
  | RdMem i k => match n with O => False | S n => sat s0 n own (k (nth i (lMem s0) x00)) Q end
  | RdBits i k => match n with O => False | S n => sat s0 n own (k (nth i (gBits (shared s0)) 0%N)) Q end
  | RdMap z k => match n with O => False | S n => sat s0 n own (k (pget z (lCache s0))) Q end
  | New k => match n with O => False | S n => forall q, length (lHeap s0) <= q -> sat s0 n (Some (q, emptyW)) (k q) Q end
  | WrF q f v k => match n with O => False | S n =>
      match own with Some (q', w) => q = q' /\ sat s0 n (Some (q, put_f w f v)) k Q | None => False end end
  | RdF q f k => match n with O => False | S n =>
      (exists w, own = Some (q, w) /\ sat s0 n own (k (get_f w f)) Q) \/
      (q < length (lHeap s0) /\ sat s0 n own (k (get_f (nth q (lHeap s0) emptyW) f)) Q) end
  end.

Section Fixed.
Variable s0 : Live.
Let c := consts s0.

Lemma sat_impl {A} (p : prog A) : forall n own (Q Q' : nat -> option (nat * WInfo) -> res A -> Prop),
  (forall m o r, Q m o r -> Q' m o r) -> sat s0 n own p Q -> sat s0 n own p Q'.
Proof.
  induction p as [r|i k IH|i k IH|z k IH|k IH|q f v k IH|q f k IH]; intros n own Q Q' H; cbn [sat]; [apply H| | | | | |];
    (destruct n as [|n]; [intros []|]).
  - apply IH, H.
  - apply IH, H.
  - apply IH, H.
  - intros X q Hq. eapply IH; [exact H|]. apply X, Hq.
  - destruct own as [[q' w]|]; [|intros []]. intros [-> X]. split; [reflexivity|]. eapply IH; eassumption.
  - intros [(w & -> & X)|(Hq & X)]; [left; exists w; split; [reflexivity|]|right; split; [exact Hq|]]; eapply IH; eassumption.
Qed.
Lemma sat_bind {A B} (p : prog A) (f : A -> prog B) : forall n own Q,
  sat s0 n own p (fun m o r => match r with Ok a => sat s0 m o (f a) Q | Err e => Q m o (Err e) | Panic => Q m o Panic | OutOfFuel => Q m o OutOfFuel end) ->
  sat s0 n own (pbind p f) Q.
Proof.
  induction p as [r|i k IH|i k IH|z k IH|k IH|q g v k IH|q g k IH]; intros n own Q; cbn [sat pbind].
  - destruct r; cbn [sat]; auto.
  - destruct n as [|n]; [intros []|]. apply IH.
  - destruct n as [|n]; [intros []|]. apply IH.
  - destruct n as [|n]; [intros []|]. apply IH.
  - destruct n as [|n]; [intros []|]. intros X q Hq. apply IH, X, Hq.
  - destruct n as [|n]; [intros []|]. destruct own as [[q' w]|]; [|intros []]. intros [-> X]. split; [reflexivity|]. apply IH, X.
  - destruct n as [|n]; [intros []|]. intros [(w & -> & X)|(Hq & X)]; [left; exists w; split; [reflexivity|]|right; split; [exact Hq|]]; apply IH, X.
Qed.
Lemma sat_try {A} (d : A) (p : prog A) : forall n own Q,
  sat s0 n own p (fun m o r => match r with Err _ => Q m o (Ok d) | _ => Q m o r end) -> sat s0 n own (ptry d p) Q.
Proof.
  induction p as [r|i k IH|i k IH|z k IH|k IH|q g v k IH|q g k IH]; intros n own Q; cbn [sat ptry].
  - destruct r; cbn [sat]; auto.
  - destruct n as [|n]; [intros []|]. apply IH.
  - destruct n as [|n]; [intros []|]. apply IH.
  - destruct n as [|n]; [intros []|]. apply IH.
  - destruct n as [|n]; [intros []|]. intros X q Hq. apply IH, X, Hq.
  - destruct n as [|n]; [intros []|]. destruct own as [[q' w]|]; [|intros []]. intros [-> X]. split; [reflexivity|]. apply IH, X.
  - destruct n as [|n]; [intros []|]. intros [(w & -> & X)|(Hq & X)]; [left; exists w; split; [reflexivity|]|right; split; [exact Hq|]]; apply IH, X.
Qed.

Lemma sat_catch {A} (p : prog A) : forall n own Q,
  sat s0 n own p (fun m o r => match r with Ok a => Q m o (Ok (Some a)) | Err _ => Q m o (Ok None) | Panic => Q m o Panic | OutOfFuel => Q m o OutOfFuel end) ->
  sat s0 n own (pcatch p) Q.
Proof.
  induction p as [r|i k IH|i k IH|z k IH|k IH|q g v k IH|q g k IH]; intros n own Q; cbn [sat pcatch].
  - destruct r; cbn [sat]; auto.
  - destruct n as [|n]; [intros []|]. apply IH.
  - destruct n as [|n]; [intros []|]. apply IH.
  - destruct n as [|n]; [intros []|]. apply IH.
  - destruct n as [|n]; [intros []|]. intros X q Hq. apply IH, X, Hq.
  - destruct n as [|n]; [intros []|]. destruct own as [[q' w]|]; [|intros []]. intros [-> X]. split; [reflexivity|]. apply IH, X.
  - destruct n as [|n]; [intros []|]. intros [(w & -> & X)|(Hq & X)]; [left; exists w; split; [reflexivity|]|right; split; [exact Hq|]]; apply IH, X.
Qed.

(** Programs that only read: at most [k] accesses, and the result is [r]. *)
Definition pure {A} (k : nat) (p : prog A) (r : res A) : Prop :=
  forall n own (Q : nat -> option (nat * WInfo) -> res A -> Prop), k <= n -> (forall m, n - k <= m -> Q m own r) -> sat s0 n own p Q.
Lemma pure_ret {A} (r : res A) : pure 0 (Ret r) r.
Proof. intros n own Q _ H. cbn [sat]. apply H. lia. Qed.
Lemma pure_le {A} k k' (p : prog A) r : pure k p r -> k <= k' -> pure k' p r.
Proof. intros H L n own Q Hn HQ. apply H; [lia|]. intros m Hm. apply HQ. lia. Qed.
Lemma pure_bind {A B} k1 k2 (p : prog A) r (f : A -> prog B) (g : A -> res B) :
  pure k1 p r -> (forall a, r = Ok a -> pure k2 (f a) (g a)) -> pure (k1 + k2) (pbind p f) (bind r g).
Proof.
  intros H1 H2 n own Q Hn HQ. apply sat_bind. apply H1; [lia|]. intros m Hm. destruct r as [a|e| |]; cbn [bind] in HQ.
  - apply H2; [reflexivity|lia|]. intros m' Hm'. apply HQ. lia.
  - apply HQ. lia.
  - apply HQ. lia.
  - apply HQ. lia.
Qed.
Lemma pure_mem {A} k i (f : byte -> prog A) r : pure k (f (nth i (lMem s0) x00)) r -> pure (S k) (RdMem i f) r.
Proof. intros H n own Q Hn HQ. destruct n as [|n]; [lia|]. cbn [sat]. apply H; [lia|]. intros m Hm. apply HQ. lia. Qed.

Lemma pure_readBytes : forall n i, i + n <= length (lMem s0) -> pure n (readBytes i n) (Ok (firstn n (skipn i (lMem s0)))).
Proof.
  induction n as [|n IH]; intros i Hi; [apply pure_ret|]. cbn [readBytes]. apply pure_mem.
  assert (exists b l, skipn i (lMem s0) = b :: l /\ b = nth i (lMem s0) x00 /\ l = skipn (S i) (lMem s0)) as (b & l & E & Eb & El).
  { clear IH. revert i Hi. induction (lMem s0) as [|b l IH]; intros i Hi; [cbn in Hi; lia|]. destruct i as [|i]; [exists b, l; auto|].
    destruct (IH i) as (b' & l' & A1 & A2 & A3); [cbn in Hi; lia|]. exists b', l'. cbn [skipn nth]. auto. }
  rewrite E. cbn [firstn]. rewrite <- Eb. rewrite El.
  replace n with (n + 0) at 1 by lia.
  change (pure (n + 0) (pbind (readBytes (S i) n) (fun l0 => Ret (Ok (b :: l0)))) (bind (Ok (firstn n (skipn (S i) (lMem s0)))) (fun l0 => Ok (b :: l0)))).
  apply pure_bind; [apply IH; lia|]. intros a _. apply pure_ret.
Qed.
Lemma pure_readSlice lo hi k : hi = (lo + Z.of_nat k)%Z -> pure k (readSlice c lo hi) (zslice (rData (now s0)) lo hi).
Proof.
  intros ->. unfold readSlice, zslice. destruct (Z.ltb_spec lo 0) as [|L1]; [apply pure_le with 0; [apply pure_ret|lia]|].
  destruct (Z.ltb_spec (lo + Z.of_nat k) 0) as [|L2]; [apply pure_le with 0; [apply pure_ret|lia]|].
  unfold slice. assert (cLen c = length (rData (now s0))) as -> by (cbn; rewrite skipn_length; reflexivity).
  destruct (_ && _)%bool eqn:B; [|apply pure_le with 0; [apply pure_ret|lia]].
  apply andb_true_iff in B as [B1 B2]. apply Nat.leb_le in B2.
  assert (Z.to_nat (lo + Z.of_nat k) - Z.to_nat lo = k) as -> by lia.
  change (rData (now s0)) with (skipn (lHead s0) (lMem s0)) in *. rewrite skipn_length in B2. rewrite AwDecodeProofs.skipn_add.
  replace (cHead c) with (lHead s0) by reflexivity. destruct k as [|k]; [apply pure_ret|].
  apply pure_readBytes. lia.
Qed.
Lemma pure_readNode node b : pure 4 (readNodeP c node b) (readNode (rData (now s0)) node b).
Proof.
  unfold readNodeP, readNode. change 4 with (4 + 0) at 1. apply pure_bind; [apply pure_readSlice; lia|]. intros a _. apply pure_ret.
Qed.
Lemma pure_readDepth ip : forall cnt i node, pure (4 * cnt) (readDepthP c cnt i node ip) (readDepth_loop (rData (now s0)) (rNodeCount (now s0)) cnt i node ip).
Proof.
  induction cnt as [|k IH]; intros i node; [apply pure_ret|]. cbn [readDepthP readDepth_loop].
  change (cNodes c) with (rNodeCount (now s0)). destruct (_ <=? _)%Z; [apply pure_le with 0; [apply pure_ret|lia]|].
  apply pure_le with (0 + (4 + 4 * k)); [|lia]. apply pure_bind; [apply pure_ret|]. intros b _.
  apply pure_bind; [apply pure_readNode|]. intros a _. apply IH.
Qed.
Lemma pure_getCache l ip : rCache (lR s0) = Some l -> pure 1 (getCacheP (length l) ip) (getCache l ip).
Proof.
  intros E. unfold getCacheP, getCache. change 1 with (0 + 1). apply pure_bind; [apply pure_ret|]. intros i _. unfold idx.
  destruct (Nat.ltb_spec (N.to_nat i) (length l)) as [L|L].
  - destruct (nth_error l (N.to_nat i)) as [x|] eqn:Ex; [|apply nth_error_None in Ex; lia]. cbn [bind].
    intros n own Q Hn HQ. destruct n as [|n]; [lia|]. cbn [sat]. unfold shared. cbn [gBits]. rewrite E. rewrite (nth_error_nth _ _ _ Ex). apply HQ. lia.
  - rewrite (proj2 (nth_error_None _ _) L). cbn [bind]. apply pure_le with 0; [apply pure_ret|lia].
Qed.
Lemma pure_search ip bc : bc <= 128 -> pure 513 (searchP c ip bc) (search (now s0) ip bc).
Proof.
  intros Hb. unfold searchP, search. change (cV4 c) with (rV4offset (now s0)). change (cNodes c) with (rNodeCount (now s0)).
  set (nc := rNodeCount (now s0)).
  assert (forall node i, pure 512 (do (node, i) <- readDepthP c (bc - i) i node ip; if (nc <? node)%Z then Ret (Ok (node, i)) else Ret (Err ErrDataNotExists))
     (let* ' (node, i) := readDepth (rData (now s0)) nc node bc i ip in if (nc <? node)%Z then Ok (node, i) else Err ErrDataNotExists)) as SL.
  { intros node i. apply pure_le with (4 * (bc - i) + 0); [|lia]. unfold readDepth. apply pure_bind; [apply pure_readDepth|].
    intros [n' i'] _. destruct (_ <? _)%Z; apply pure_ret. }
  change (cBits c) with (match rCache (lR s0) with Some l => Some (length l) | None => None end).
  change (rCache (now s0)) with (rCache (lR s0)). destruct (rCache (lR s0)) as [l|] eqn:E.
  - destruct (bc =? 32).
    + change 513 with (1 + 512). apply pure_bind; [apply pure_getCache; exact E|]. intros [n' i'] _.
      destruct (_ <? _)%Z; [apply pure_le with 0; [apply pure_ret|lia]|apply SL].
    + apply pure_le with 512; [apply SL|lia].
  - apply pure_le with 512; [apply SL|lia].
Qed.
Lemma pure_resolve node : pure 2 (resolveP c node) (resolveW (now s0) node).
Proof.
  unfold resolveP, resolveW. change (cFileSize c) with (rFileSize (now s0)). change (cNodes c) with (rNodeCount (now s0)).
  assert (cLen c = length (rData (now s0))) as -> by (cbn; rewrite skipn_length; reflexivity).
  destruct (_ <=? _)%Z; [apply pure_le with 0; [apply pure_ret|lia]|].
  change 2 with (2 + 0) at 1. apply pure_bind; [apply pure_readSlice; lia|]. intros a _. destruct (_ <? _)%Z; apply pure_ret.
Qed.
Lemma pure_find0 ip : pure 515 (find0P c ip) (find0W (now s0) ip).
Proof.
  unfold find0P, find0W. change (cMeta c) with (rMeta (now s0)).
  assert (forall x bc, bc <= 128 -> pure 515 (do (node, mask) <- searchP c x bc; do w <- resolveP c node; Ret (Ok (node, w, mask)))
     (let* ' (node, mask) := search (now s0) x bc in let* w := resolveW (now s0) node in Ok (node, w, mask))) as G.
  { intros x bc Hb. change 515 with (513 + (2 + 0)). apply pure_bind; [apply pure_search; exact Hb|]. intros [nd m] _.
    apply pure_bind; [apply pure_resolve|]. intros w _. apply pure_ret. }
  destruct (negb _).
  - destruct (HasIPv4 _); [apply G; lia|apply pure_le with 0; [apply pure_ret|lia]].
  - destruct (negb _); [|apply pure_le with 0; [apply pure_ret|lia]].
    destruct (HasIPv6 _); [apply G; lia|apply pure_le with 0; [apply pure_ret|lia]].
Qed.
Lemma pure_readStr g : pure (length (lMem s0)) (readStr c g) (Ok (gs_read (lMem s0) g)).
Proof.
  destruct g as [s|off len]; cbn [readStr gs_read]; [apply pure_le with 0; [apply pure_ret|lia]|].
  change (cMem c) with (length (lMem s0)).
  assert (firstn len (skipn off (lMem s0)) = firstn (Nat.min len (length (lMem s0) - off)) (skipn off (lMem s0))) as ->.
  { destruct (Nat.min_spec len (length (lMem s0) - off)) as [[L ->]|[L ->]]; [reflexivity|].
    rewrite !firstn_all2 by (rewrite skipn_length; lia). reflexivity. }
  destruct (le_gt_dec off (length (lMem s0))).
  - apply pure_le with (Nat.min len (length (lMem s0) - off)); [apply pure_readBytes; lia|lia].
  - replace (Nat.min len (length (lMem s0) - off)) with 0 by lia. apply pure_le with 0; [apply pure_ret|lia].
Qed.
Lemma pure_decodeInfo w off : pure (2 * length (lMem s0)) (decodeInfoP c w off) (decodeInfoW s0 w off).
Proof.
  unfold decodeInfoP, decodeInfoW. change (cHead c) with (lHead s0). change (cMeta c) with (rMeta (lR s0)). change (cCont c) with (rCont (lR s0)).
  change (firstn (snd w) (skipn (lHead s0 + fst w) (lMem s0))) with (gs_read (lMem s0) (Win (lHead s0 + fst w) (snd w))).
  set (text := gs_read (lMem s0) (Win (lHead s0 + fst w) (snd w))).
  replace (2 * length (lMem s0)) with (length (lMem s0) + length (lMem s0)) by lia.
  match goal with |- pure _ (pbind _ ?f) ?r => change r with (bind (Ok text) (fun text =>
    let tmp := cuts (lHead s0 + fst w) 0 text in
    if (Z.of_nat (length tmp) <? off + Z.of_nat (length (mFields (rMeta (lR s0)))))%Z then Err ErrDatabaseError
    else if (off <? 0)%Z then Panic
    else let* ret := slice tmp (Z.to_nat off) (Z.to_nat (off + Z.of_nat (length (mFields (rMeta (lR s0)))))) in
    match rCont (lR s0) with
    | None => Ok ret
    | Some i => let* v := idx ret i in Ok (upd ret i (cont_nameW (lMem s0) v))
    end)) end.
  apply pure_bind; [apply pure_readStr|]. intros t _. cbv zeta.
  destruct (_ <? _)%Z; [apply pure_le with 0; [apply pure_ret|lia]|]. destruct (off <? 0)%Z; [apply pure_le with 0; [apply pure_ret|lia]|].
  change (length (lMem s0)) with (0 + length (lMem s0)). apply pure_bind; [apply pure_ret|]. intros ret _.
  destruct (rCont (lR s0)) as [i|]; [|apply pure_le with 0; [apply pure_ret|lia]].
  change (length (lMem s0)) with (0 + length (lMem s0)). apply pure_bind; [apply pure_ret|]. intros g _.
  replace (length (lMem s0)) with (length (lMem s0) + 0) by lia.
  change (Ok (upd ret i (cont_nameW (lMem s0) g))) with (bind (Ok (gs_read (lMem s0) g)) (fun v => Ok (upd ret i (if bytes_eqb (cont_name v) v then g else Own (cont_name v))))).
  apply pure_bind; [apply pure_readStr|]. intros v _. apply pure_ret.
Qed.

(* ---------- the results that are made ---------- *)
Lemma put_f_set w f v : set_fieldW w f v = match field_no f with Some k => put_f w k v | None => w end.
Proof.
  unfold set_fieldW, field_no. destruct w. repeat (destruct (bytes_eqb f _); [reflexivity|]). reflexivity.
Qed.
Lemma sat_store q : forall l w n (Q : nat -> option (nat * WInfo) -> res unit -> Prop), length l <= n ->
  (forall m, n - length l <= m -> Q m (Some (q, fold_left (fun info fv => set_fieldW info (fst fv) (snd fv)) l w)) (Ok tt)) ->
  sat s0 n (Some (q, w)) (storeP q l) Q.
Proof.
  induction l as [|[f v] l IH]; intros w n Q Hn HQ; cbn [storeP fold_left fst snd length] in *; [cbn [sat]; apply HQ; lia|].
  rewrite put_f_set in HQ. destruct (field_no f) as [k|].
  - destruct n as [|n]; [lia|]. cbn [sat]. split; [reflexivity|]. apply IH; [lia|]. intros m Hm. apply HQ. lia.
  - apply IH; [lia|]. intros m Hm. apply HQ. lia.
Qed.
Definition cost_query : nat := 517 + 2 * length (lMem s0) + length (mFields (rMeta (lR s0))).
Lemma sat_query ip n (Q : nat -> option (nat * WInfo) -> res (nat * nat) -> Prop) : cost_query <= n ->
  match QueryW s0 ip with
  | Ok (s', (p, m)) => forall k, n - cost_query <= k ->
      (p < length (lHeap s0) -> s' = s0 -> Q k None (Ok (p, m))) /\
      (forall q w, length (lHeap s0) <= q -> p = length (lHeap s0) -> s' = fst (alloc s0 w) -> Q k (Some (q, w)) (Ok (q, m)))
  | Err e => forall k, n - cost_query <= k -> Q k None (Err e)
  | Panic => forall k, n - cost_query <= k -> Q k None Panic
  | OutOfFuel => forall k, n - cost_query <= k -> Q k None OutOfFuel
  end -> wfW s0 -> sat s0 n None (queryP c ip) Q.
Proof.
  intros Hn H W. unfold QueryW, QueryInternalW in H. unfold queryP. apply sat_bind, sat_try. unfold cost_query in *.
  apply pure_find0; [lia|]. intros m Hm.
  assert (forall nd w mask k, n - 515 <= k ->
    match (let* ' (s', (_, p, mask)) := (match pget nd (lCache s0) with Some p => Ok (s0, (nd, p, mask)) | None =>
       match assoc (str "CN") (mLanguages (rMeta (lR s0))) with
        | None => Err ErrNoSupportLanguage
        | Some off =>
            let* values := decodeInfoW s0 w off in
            let '(s', p) := alloc s0 (make_infoW (mFields (rMeta (lR s0))) values) in
            Ok (s', (nd, p, mask))
        end end) in Ok (s', (p, mask))) with
    | Ok (s', (p, m)) => forall k, n - cost_query <= k ->
      (p < length (lHeap s0) -> s' = s0 -> Q k None (Ok (p, m))) /\
      (forall q w, length (lHeap s0) <= q -> p = length (lHeap s0) -> s' = fst (alloc s0 w) -> Q k (Some (q, w)) (Ok (q, m)))
    | Err e => forall k, n - cost_query <= k -> Q k None (Err e)
    | Panic => forall k, n - cost_query <= k -> Q k None Panic
    | OutOfFuel => forall k, n - cost_query <= k -> Q k None OutOfFuel
    end -> sat s0 k None (RdMap nd (fun hit =>
    match hit with
    | Some p => Ret (Ok (p, mask))
    | None =>
        match assoc (str "CN") (mLanguages (cMeta c)) with
        | None => Ret (Err ErrNoSupportLanguage)
        | Some off =>
            do values <- decodeInfoP c w off;
            New (fun p => do _ <- storeP p (combine (mFields (cMeta c)) values); Ret (Ok (p, mask)))
        end
    end)) Q) as G.
  { intros nd w mask k Hk G. unfold cost_query in G. destruct k as [|k]; [lia|]. cbn [sat]. destruct (pget nd (lCache s0)) as [p|] eqn:P.
    - cbn [sat bind] in *. apply (proj1 (G k ltac:(lia))); [|reflexivity]. eapply pget_wf; eassumption.
    - change (cMeta c) with (rMeta (lR s0)). destruct (assoc _ _) as [off|]; [|cbn [sat bind] in *; apply G; lia].
      apply sat_bind. apply pure_decodeInfo; [lia|]. intros k' Hk'.
      destruct (decodeInfoW s0 w off) as [values| | |]; cbn [bind] in G; [|apply G; lia|apply G; lia|apply G; lia].
      destruct k' as [|k']; [lia|]. cbn [sat]. intros q Hq. apply sat_bind.
      assert (length (combine (mFields (rMeta (lR s0))) values) <= length (mFields (rMeta (lR s0)))) as LC by (rewrite combine_length; lia).
      apply sat_store; [lia|]. intros k'' Hk''. cbn [sat]. change (fold_left _ _ emptyW) with (make_infoW (mFields (rMeta (lR s0))) values).
      cbn [alloc bind] in G. apply (proj2 (G k'' ltac:(lia))); [exact Hq|reflexivity|reflexivity]. }
  destruct (find0W (now s0) ip) as [[[nd w] mask]|e| |]; cbn [bind] in H.
  - apply G; [lia|exact H].
  - apply G; [lia|exact H].
  - apply H. unfold cost_query. lia.
  - apply H. unfold cost_query. lia.
Qed.
Lemma sat_fields w p : forall l n own (Q : nat -> option (nat * WInfo) -> res (list bytes) -> Prop), (length (lMem s0) + 1) * length l <= n ->
  (own = Some (p, w) \/ p < length (lHeap s0) /\ w = nth p (lHeap s0) emptyW) ->
  (forall m, n - (length (lMem s0) + 1) * length l <= m -> Q m own (Ok (map (fun f => gs_read (lMem s0) (get_f w f)) l))) ->
  sat s0 n own (fieldsP c p l) Q.
Proof.
  induction l as [|f l IH]; intros n own Q Hn HO HQ; cbn [fieldsP map length] in *; [cbn [sat]; apply HQ; lia|].
  destruct n as [|n]; [lia|]. cbn [sat].
  assert (sat s0 n own (do v <- readStr c (get_f w f); do vs <- fieldsP c p l; Ret (Ok (v :: vs))) Q) as G.
  { apply sat_bind. apply pure_readStr; [lia|]. intros m Hm. apply sat_bind. apply IH; [lia|exact HO|]. intros m' Hm'. cbn [sat]. apply HQ. lia. }
  destruct HO as [->|[Hp ->]]; [left; exists w; auto|right; auto].
Qed.

Definition cost : nat := 525 + 10 * length (lMem s0) + length (mFields (rMeta (lR s0))).
Lemma lread_fields s w p : lMem s = lMem s0 -> nth p (lHeap s) emptyW = w ->
  info_of (map (fun f => gs_read (lMem s0) (get_f w f)) (seq 0 8)) = lread s p.
Proof. intros E1 E2. unfold lread. rewrite E1, E2. reflexivity. Qed.
Lemma sat_handler nl ne path : wfW s0 ->
  sat s0 cost None (handler nl ne (version (lR s0)) c path) (fun _ _ r => r = http_get nl ne (QIpdb (now s0) (cview s0)) path).
Proof.
  intros W. unfold handler, http_get. destruct (bytes_eqb path _); [reflexivity|].
  destruct path as [|b text]; [reflexivity|]. unfold QueryStr. destruct (ParseIP text) as [ip|]; [|reflexivity].
  unfold DbQuery, q_query, Query. apply sat_bind, sat_catch. apply sat_query; [unfold cost, cost_query; lia| |exact W].
  pose proof (QueryInternal_W s0 ip true) as QI. unfold QueryW.
  destruct (QueryInternalW s0 ip true) as [[s' [[nd p] m]]|e| |]; cbn [bind].
  - destruct QI as [QI Cs]. rewrite QI. cbn [bind triple]. intros k Hk. unfold cost, cost_query in Hk.
    split; [intros Hp ->|intros q w Hq Hp ->].
    + apply sat_bind. apply sat_fields with (w := nth p (lHeap s0) emptyW); [cbn [length seq]; lia|auto|].
      intros m' _. cbn [sat]. rewrite (lread_fields s0 _ p); [reflexivity|reflexivity|reflexivity].
    + apply sat_bind. apply sat_fields with (w := w); [cbn [length seq]; lia|auto|].
      intros m' _. cbn [sat]. rewrite (lread_fields (fst (alloc s0 w)) w p); [reflexivity|reflexivity|].
      rewrite Hp. cbn [alloc fst lHeap]. rewrite app_nth2, Nat.sub_diag by lia. reflexivity.
  - rewrite QI. reflexivity.
  - rewrite QI. reflexivity.
  - rewrite QI. reflexivity.
Qed.

(* ---------- the machine ---------- *)
Definition n0 := length (lHeap s0).
(** Everything that was there when the server started is as it was. *)
Definition agree (s : Shared) : Prop :=
  gMem s = lMem s0 /\ gBits s = gBits (shared s0) /\ gMap s = lCache s0 /\ n0 <= length (gHeap s) /\
  (forall p, p < n0 -> nth p (gHeap s) emptyW = nth p (lHeap s0) emptyW).
Lemma act_sat {A} (p : prog A) m own Q s s' p' : sat s0 m own p Q -> agree s ->
  (forall q w, own = Some (q, w) -> n0 <= q < length (gHeap s) /\ nth q (gHeap s) emptyW = w) -> act s p = Some (s', p') ->
  exists m' own', m = S m' /\ sat s0 m' own' p' Q /\ gMem s' = gMem s /\ gBits s' = gBits s /\ gMap s' = gMap s /\
    ((gHeap s' = gHeap s /\ own' = own) \/
     (gHeap s' = gHeap s ++ [emptyW] /\ own' = Some (length (gHeap s), emptyW)) \/
     (exists q w w', own = Some (q, w) /\ own' = Some (q, w') /\ gHeap s' = upd (gHeap s) q w')).
Proof.
  intros S (A1 & A2 & A3 & A4 & A5) O X.
  destruct p as [r|i k|i k|z k|k|q f v k|q f k]; cbn [act] in X; [discriminate| | | | | |]; injection X as <- <-; cbn [sat] in S;
    (destruct m as [|m]; [destruct S|]); exists m.
  - exists own. rewrite <- A1 in S. repeat split; auto.
  - exists own. rewrite <- A2 in S. repeat split; auto.
  - exists own. rewrite <- A3 in S. repeat split; auto.
  - exists (Some (length (gHeap s), emptyW)). split; [reflexivity|]. split; [apply S; exact A4|]. repeat split. right. left. split; reflexivity.
  - destruct own as [[q' w]|]; [|destruct S]. destruct S as [-> S]. destruct (O _ _ eq_refl) as [_ E]. rewrite E.
    exists (Some (q', put_f w f v)). split; [reflexivity|]. split; [exact S|]. repeat split. right. right. exists q', w, (put_f w f v). auto.
  - exists own. split; [reflexivity|]. split; [|repeat split; left; split; reflexivity].
    destruct S as [(w & -> & S)|(Hq & S)].
    + destruct (O _ _ eq_refl) as [_ ->]. exact S.
    + rewrite A5 by exact Hq. exact S.
Qed.

(** The invariant.  [owners]: which thread made which result, from [n0] on. *)
Definition fits_thread (R : bytes -> res (Z * bytes)) (owners : list nat) (s : Shared) (i : nat) (t : thread) : Prop :=
  exists m own, tCount t + m <= cost /\ sat s0 m own (tProg t) (fun _ _ r => r = R (tPath t)) /\
    (forall q w, own = Some (q, w) -> n0 <= q /\ nth_error owners (q - n0) = Some i /\ nth q (gHeap s) emptyW = w).
Definition inv (R : bytes -> res (Z * bytes)) (owners : list nat) (st : Shared * list thread) : Prop :=
  agree (fst st) /\ length (gHeap (fst st)) = n0 + length owners /\
  (forall i t, nth_error (snd st) i = Some t -> fits_thread R owners (fst st) i t).
Lemma upd_nth_error {A} (l : list A) : forall i j x, nth_error (upd l i x) j = if (i =? j)%nat then match nth_error l i with Some _ => Some x | None => None end else nth_error l j.
Proof.
  induction l as [|a l IH]; intros [|i] [|j] x; cbn [upd nth_error Nat.eqb]; try reflexivity.
  - destruct (i =? j); reflexivity.
  - apply IH.
Qed.
Lemma inv_step R start owners st st' : (forall path, sat s0 cost None (start path) (fun _ _ r => r = R path)) ->
  inv R owners st -> serve start st st' -> exists l, inv R (owners ++ l) st'.
Proof.
  intros Hstart (A & L & F) X. destruct X as [s ts path|s ts i path n p s' p' Hi X]; cbn [fst snd] in *.
  - exists []. rewrite app_nil_r. split; [exact A|]. split; [exact L|]. cbn [fst snd]. intros i t Ht.
    destruct (Nat.lt_ge_cases i (length ts)) as [Hl|Hl].
    + rewrite nth_error_app1 in Ht by exact Hl. apply F, Ht.
    + rewrite nth_error_app2 in Ht by exact Hl. destruct (i - length ts) as [|k]; [|destruct k; discriminate]. injection Ht as <-.
      exists cost, None. cbn [tCount tProg tPath]. split; [lia|]. split; [apply Hstart|]. intros q w Y. discriminate.
  - destruct (F _ _ Hi) as (m & own & C & S & O). cbn [tCount tProg tPath] in *.
    assert (forall q w, own = Some (q, w) -> n0 <= q < length (gHeap s) /\ nth q (gHeap s) emptyW = w) as O'.
    { intros q w E. destruct (O _ _ E) as (O1 & O2 & O3). split; [|exact O3]. assert (q - n0 < length owners) by (apply nth_error_Some; congruence). lia. }
    destruct (act_sat p m own _ s s' p' S A O' X) as (m' & own' & -> & S' & E1 & E2 & E3 & D).
    destruct A as (A1 & A2 & A3 & A4 & A5).
    destruct D as [[EH ->]|[[EH ->]|(q & w & w' & -> & -> & EH)]].
    + exists []. rewrite app_nil_r. split; [unfold agree; cbn [fst]; rewrite E1, E2, E3, EH; auto|]. split; [cbn [fst]; rewrite EH; exact L|].
      cbn [fst snd]. intros j t Ht. rewrite upd_nth_error in Ht. destruct (Nat.eqb_spec i j) as [<-|Hn].
      * rewrite Hi in Ht. injection Ht as <-. exists m', own. cbn [tCount tProg tPath]. split; [lia|]. split; [exact S'|]. rewrite EH. exact O.
      * destruct (F _ _ Ht) as (m1 & o1 & F1 & F2 & F3). exists m1, o1. rewrite EH. auto.
    + exists [i]. split; [|split].
      * unfold agree; cbn [fst]. rewrite E1, E2, E3, EH, app_length. repeat split; auto; [lia|]. intros x Hx. rewrite app_nth1 by lia. auto.
      * cbn [fst]. rewrite EH, !app_length. cbn [length]. lia.
      * cbn [fst snd]. intros j t Ht. rewrite upd_nth_error in Ht. destruct (Nat.eqb_spec i j) as [<-|Hn].
        -- rewrite Hi in Ht. injection Ht as <-. exists m', (Some (length (gHeap s), emptyW)). cbn [tCount tProg tPath]. split; [lia|]. split; [exact S'|].
           intros q w E. injection E as <- <-. rewrite EH. split; [lia|]. split.
           ++ rewrite nth_error_app2 by lia. replace (length (gHeap s) - n0 - length owners) with 0 by lia. reflexivity.
           ++ rewrite app_nth2, Nat.sub_diag by lia. reflexivity.
        -- destruct (F _ _ Ht) as (m1 & o1 & F1 & F2 & F3). exists m1, o1. split; [exact F1|]. split; [exact F2|]. intros q w E.
           destruct (F3 _ _ E) as (G1 & G2 & G3). assert (q - n0 < length owners) by (apply nth_error_Some; congruence).
           rewrite EH. split; [exact G1|]. split; [rewrite nth_error_app1 by lia; exact G2|]. rewrite app_nth1 by lia. exact G3.
    + exists []. rewrite app_nil_r. destruct (O _ _ eq_refl) as (P1 & P2 & P3). destruct (O' _ _ eq_refl) as (P4 & _).
      split; [|split].
      * unfold agree; cbn [fst]. rewrite E1, E2, E3, EH, upd_len. repeat split; auto. intros x Hx. rewrite upd_other by lia. auto.
      * cbn [fst]. rewrite EH, upd_len. exact L.
      * cbn [fst snd]. intros j t Ht. rewrite upd_nth_error in Ht. destruct (Nat.eqb_spec i j) as [<-|Hn].
        -- rewrite Hi in Ht. injection Ht as <-. exists m', (Some (q, w')). cbn [tCount tProg tPath]. split; [lia|]. split; [exact S'|].
           intros q1 w1 E. injection E as <- <-. rewrite EH. split; [exact P1|]. split; [exact P2|]. rewrite upd_same by lia. reflexivity.
        -- destruct (F _ _ Ht) as (m1 & o1 & F1 & F2 & F3). exists m1, o1. split; [exact F1|]. split; [exact F2|]. intros q1 w1 E.
           destruct (F3 _ _ E) as (G1 & G2 & G3). rewrite EH. split; [exact G1|]. split; [exact G2|]. rewrite upd_other; [exact G3|].
           intros <-. rewrite P2 in G2. congruence.
Qed.
Lemma inv_history R start owners st st' : (forall path, sat s0 cost None (start path) (fun _ _ r => r = R path)) ->
  inv R owners st -> history start st st' -> exists l, inv R (owners ++ l) st'.
Proof.
  intros Hs I H. induction H as [|st1 st2 H IH X]; [exists []; rewrite app_nil_r; exact I|].
  destruct IH as [l I1]. destruct (inv_step _ _ _ _ _ Hs I1 X) as [l' I2]. exists (l ++ l'). rewrite app_assoc. exact I2.
Qed.
Lemma inv_start R : inv R [] (shared s0, []).
Proof.
  split; [|split].
  - unfold agree. cbn [fst shared gMem gBits gMap gHeap]. repeat split. unfold n0. lia.
  - cbn [fst shared gHeap length]. unfold n0. lia.
  - intros [|i] t H; discriminate.
Qed.
Lemma inv_writes R owners st i t o : inv R owners st -> nth_error (snd st) i = Some t -> writes (tProg t) o ->
  n0 <= o /\ nth_error owners (o - n0) = Some i.
Proof.
  intros (_ & _ & F) Ht Wr. destruct (F _ _ Ht) as (m & own & _ & S & O). destruct (tProg t); try destruct Wr. cbn [sat] in S.
  destruct m; [destruct S|]. destruct own as [[q' w]|]; [|destruct S]. destruct S as [<- _]. destruct (O _ _ eq_refl) as (A & B & _). auto.
Qed.
Lemma inv_touches R owners st i t o : inv R owners st -> nth_error (snd st) i = Some t -> touches (tProg t) o ->
  n0 <= o -> nth_error owners (o - n0) = Some i.
Proof.
  intros (_ & _ & F) Ht Wr Hn. destruct (F _ _ Ht) as (m & own & _ & S & O). destruct (tProg t); try destruct Wr; cbn [sat] in S.
  - destruct m; [destruct S|]. destruct own as [[q' w]|]; [|destruct S]. destruct S as [<- _]. destruct (O _ _ eq_refl) as (A & B & _). exact B.
  - destruct m; [destruct S|]. destruct S as [(w & -> & _)|(Hq & _)]; [|unfold n0 in Hn; lia]. destruct (O _ _ eq_refl) as (A & B & _). exact B.
Qed.
End Fixed.

(* ------------------------------------------------------------------ *)
(** The server over an open file. *)
Definition server (nl ne : bool) (s0 : Live) : bytes -> prog (Z * bytes) := handler nl ne (version (lR s0)) (consts s0).
Lemma server_inv E ipList data s0 nl ne st : openW (jUnMeta E) data (map cache_ip ipList) = Ok s0 ->
  history (server nl ne s0) (shared s0, []) st -> exists owners, inv s0 (http_get nl ne (QIpdb (now s0) (cview s0))) owners st.
Proof.
  intros O H. destruct (open_W _ _ _ _ O) as (r & R & N0 & M0 & W0 & BC).
  eapply (inv_history s0 _ (server nl ne s0) []); [|apply inv_start|exact H]. intros path. apply sat_handler. exact W0.
Qed.

(** C69: whatever requests arrive and however their accesses to the memory alternate, a
    finished request was answered as if it had been the only one. *)
Theorem C69_answers : forall E ipList data s0 nl ne st i path n r,
  openW (jUnMeta E) data (map cache_ip ipList) = Ok s0 ->
  history (server nl ne s0) (shared s0, []) st ->
  nth_error (snd st) i = Some (mkT path n (Ret r)) ->
  exists q, NewDbFromBytes (serverFormats E) ipList (str ".ipdb") data = Ok q /\ r = http_get nl ne q path.
Proof.
  intros E il data s0 nl ne st i path n r O H Hi. eexists. split; [eapply facade_open; exact O|].
  destruct (server_inv _ _ _ _ _ _ _ O H) as (ow & _ & _ & F). destruct (F _ _ Hi) as (m & own & _ & S & _). exact S.
Qed.
Print Assumptions C69_answers.

(** Results are never shared for writing: if one request stores into a result, no other
    request reads it or stores into it, at the same time, before or after. *)
Theorem C69_no_race : forall E ipList data s0 nl ne st st' i j t t' o,
  openW (jUnMeta E) data (map cache_ip ipList) = Ok s0 ->
  history (server nl ne s0) (shared s0, []) st -> history (server nl ne s0) st st' ->
  nth_error (snd st) i = Some t -> nth_error (snd st') j = Some t' ->
  writes (tProg t) o /\ touches (tProg t') o \/ touches (tProg t) o /\ writes (tProg t') o -> i = j.
Proof.
  intros E il data s0 nl ne st st' i j t t' o O H H' Hi Hj B. destruct (server_inv _ _ _ _ _ _ _ O H) as (ow & I).
  destruct (open_W _ _ _ _ O) as (r & R & N0 & M0 & W0 & BC).
  destruct (inv_history s0 _ (server nl ne s0) ow st st' ltac:(intros; apply sat_handler; exact W0) I H') as [l I'].
  assert (n0 s0 <= o /\ nth_error ow (o - n0 s0) = Some i /\ nth_error (ow ++ l) (o - n0 s0) = Some j) as (Hn & Oi & Oj).
  { destruct B as [[B1 B2]|[B1 B2]].
    - destruct (inv_writes _ _ _ _ _ _ _ I Hi B1) as [A1 A2]. pose proof (inv_touches _ _ _ _ _ _ _ I' Hj B2 A1). auto.
    - destruct (inv_writes _ _ _ _ _ _ _ I' Hj B2) as [A1 A2]. pose proof (inv_touches _ _ _ _ _ _ _ I Hi B1 A1). auto. }
  rewrite nth_error_app1 in Oj by (apply nth_error_Some; congruence). congruence.
Qed.
Print Assumptions C69_no_race.

(** Requests do not wait for each other: one that has not finished can go on at any time, and
    it makes at most so many accesses, whatever the others do. *)
Theorem C69_finishes : forall E ipList data s0 nl ne st i t,
  openW (jUnMeta E) data (map cache_ip ipList) = Ok s0 ->
  history (server nl ne s0) (shared s0, []) st -> nth_error (snd st) i = Some t ->
  tCount t <= 525 + 10 * length data + length (mFields (rMeta (lR s0))) /\
  ((exists r, tProg t = Ret r) \/ exists st', serve (server nl ne s0) st st' /\
     exists p', nth_error (snd st') i = Some (mkT (tPath t) (S (tCount t)) p')).
Proof.
  intros E il data s0 nl ne [s ts] i [path n p] O H Hi. destruct (server_inv _ _ _ _ _ _ _ O H) as (ow & _ & _ & F).
  destruct (open_W _ _ _ _ O) as (r & R & N0 & M0 & W0 & BC). cbn [fst snd tCount tProg tPath] in *.
  destruct (F _ _ Hi) as (m & own & C & _ & _). split; [unfold cost in C; rewrite M0 in C; cbn [tCount] in C; lia|].
  assert ((exists r, p = Ret r) \/ exists s' p', act s p = Some (s', p')) as [D|(s' & p' & D)] by (destruct p; cbn [act]; eauto); [left; exact D|right].
  exists (s', upd ts i (mkT path (S n) p')). split; [eapply sv_access; eassumption|]. exists p'. cbn [snd]. rewrite upd_nth_error, Nat.eqb_refl, Hi. reflexivity.
Qed.
Print Assumptions C69_finishes.

(** A case: three requests that alternate access by access, two for addresses that make a
    result each, and one for an address that is cached. *)
Definition two_body : bytes := [x00; x00; x00; x02; x00; x00; x00; x05; x00; x00; x01; x41; x00; x02; x42; x42].
Definition two_meta : MetaData := mkMeta 0 2 [(str "CN", 0%Z)] 1 16 [str "country_name"] (str "v1") [].
Definition two_md : bytes := jMeta case_env two_meta.
Definition two_file : bytes := IntToBinaryBE (Z.of_nat (length two_md)) 32 ++ two_md ++ two_body.
Fixpoint play (start : bytes -> prog (Z * bytes)) (st : Shared * list thread) (l : list (bytes + nat)) : Shared * list thread :=
  match l with
  | [] => st
  | Datatypes.inl path :: r => play start (fst st, snd st ++ [mkT path 0 (start path)]) r
  | Datatypes.inr i :: r =>
      match nth_error (snd st) i with
      | Some (mkT path n p) =>
          match act (fst st) p with Some (s', p') => play start (s', upd (snd st) i (mkT path (S n) p')) r | None => play start st r end
      | None => play start st r
      end
  end.
Lemma play_history start : forall l st0 st, history start st0 st -> history start st0 (play start st l).
Proof.
  induction l as [|[path|i] l IH]; intros st0 [s ts] H; cbn [play fst snd]; [exact H| |].
  - apply IH. eapply hi_step; [exact H|]. constructor.
  - destruct (nth_error ts i) as [[path n p]|] eqn:E; [|apply IH, H]. destruct (act s p) as [[s' p']|] eqn:X; [|apply IH, H].
    apply IH. eapply hi_step; [exact H|]. econstructor; eassumption.
Qed.
Definition turns (n : nat) : list (bytes + nat) := concat (repeat [Datatypes.inr 0; Datatypes.inr 1; Datatypes.inr 2] n).
Definition reqs : list (bytes + nat) := [Datatypes.inl (str "/1::"); Datatypes.inl (str "/2::"); Datatypes.inl (str "/8000::")].
(** Single quotes stand for double ones. *)
Definition jq (s : String.string) : bytes := map (fun b => if byte_eqb b x27 then x22 else b) (str s).
Definition t_res (st : Shared * list thread) : list (option (res (Z * bytes))) :=
  map (fun t => match tProg t with Ret r => Some r | _ => None end) (snd st).
Definition t_writes (st : Shared * list thread) : list (option nat) :=
  map (fun t => match tProg t with WrF q _ _ _ => Some q | _ => None end) (snd st).
Example C69_case : exists s0 st st',
  openW (jUnMeta case_env) two_file (map cache_ip [str "8000::"]) = Ok s0 /\
  history (server true true s0) (shared s0, []) st /\ t_writes st = [Some 1; Some 2; None] /\
  history (server true true s0) st st' /\
  t_res st' = [Some (Ok (200%Z, jq "{'country':'A'}")); Some (Ok (200%Z, jq "{'country':'A'}")); Some (Ok (200%Z, jq "{'country':'BB'}"))] /\
  map tCount (snd st') = [19; 19; 17].
Proof.
  assert (match openW (jUnMeta case_env) two_file (map cache_ip [str "8000::"]) with
    | Ok s0 => let st := play (server true true s0) (shared s0, []) (reqs ++ turns 9) in
               let st' := play (server true true s0) st (turns 20) in
               Some (t_writes st, t_res st', map tCount (snd st'))
    | _ => None end = Some ([Some 1; Some 2; None],
       [Some (Ok (200%Z, jq "{'country':'A'}")); Some (Ok (200%Z, jq "{'country':'A'}")); Some (Ok (200%Z, jq "{'country':'BB'}"))], [19; 19; 17])) as H by (vm_compute; reflexivity).
  destruct (openW _ _ _) as [s0| | |]; try discriminate. cbv zeta in H.
  set (st := play _ _ (reqs ++ _)) in H. set (st' := play _ _ _) in H. exists s0, st, st'. split; [reflexivity|].
  split; [apply play_history; constructor|]. split; [congruence|]. split; [apply play_history; constructor|]. split; congruence.
Qed.

(** Property theorems C65: what callers of an open ipdb database share with it and with each
    other: any history of queries, of stores into results, and of stores into the bytes the
    database was opened from. *)
From Verif Require Import Base NetIP IpNet Spec IpNetProofs SplitProofs IpNetProofs2 Inf Ipdb SpecIpdb SpecExport Export Bits.
From Verif Require Import TrieProofs WriterProofs ReaderProofs OpenProofs PackProofs PropsIpdb.
From Verif Require Import Tables Operate NetText NetTextProofs Facade PropsFacade2 PropsFacade3 ConvertProofs PropsConvert PropsFile.
From Verif Require Import Alias.
Open Scope nat_scope.

(* ---------- texts as windows ---------- *)
Lemma cuts_read mem s : forall off n cur, firstn (n + length s) (skipn off mem) = cur ++ s -> length cur = n ->
  map (gs_read mem) (cuts off n s) = match split x09 s with h :: t => (cur ++ h) :: t | [] => [] end.
Proof.
  induction s as [|c r IH]; intros off n cur H L; cbn [cuts split].
  - cbn [length] in H. rewrite Nat.add_0_r, app_nil_r in H. cbn. rewrite H, app_nil_r. reflexivity.
  - destruct (byte_eqb c x09) eqn:E.
    + cbn [map gs_read]. rewrite app_nil_r.
      assert (firstn n (skipn off mem) = cur) as ->.
      { apply (f_equal (firstn n)) in H. rewrite firstn_firstn, firstn_app in H. cbn [length] in H.
        replace (Nat.min n (n + S (length r))) with n in H by lia. rewrite H. replace (n - length cur) with 0 by lia.
        rewrite firstn_O, app_nil_r. apply firstn_all2. lia. }
      f_equal. rewrite (IH (S (off + n)) 0 []); [destruct (split x09 r); reflexivity| |reflexivity].
      cbn [app Nat.add]. apply (f_equal (skipn (S n))) in H. rewrite skipn_app in H.
      rewrite (skipn_all2 cur) in H by lia. replace (S n - length cur) with 1 in H by lia. rewrite skipn_firstn_comm in H.
      change ([] ++ skipn 1 (c :: r)) with r in H. replace (n + length (c :: r) - S n) with (length r) in H by (cbn [length]; lia).
      rewrite PropsFile.skipn_two in H. replace (S (off + n)) with (S n + off) by lia. exact H.
    + rewrite (IH off (S n) (cur ++ [c])).
      * destruct (split x09 r) as [|h t] eqn:Es; [exfalso; revert Es; destruct r as [|d r']; cbn [split]; [discriminate|]; destruct (byte_eqb d x09); [discriminate|]; destruct (split x09 r'); discriminate|]. rewrite <- app_assoc. reflexivity.
      * rewrite <- app_assoc. cbn [app]. rewrite <- H. f_equal. cbn [length]. lia.
      * rewrite app_length. cbn. lia.
Qed.
Lemma cuts_split mem s off : firstn (length s) (skipn off mem) = s -> map (gs_read mem) (cuts off 0 s) = split x09 s.
Proof.
  intros H. rewrite (cuts_read mem s off 0 []); [|assumption|reflexivity].
  destruct s as [|c r]; [reflexivity|]. cbn [split]. destruct (byte_eqb c x09); [reflexivity|]. destruct (split x09 r); reflexivity.
Qed.

Lemma resolve_W r node : resolve r node = match resolveW r node with
  | Ok w => Ok (firstn (snd w) (skipn (fst w) (rData r))) | Err e => Err e | Panic => Panic | OutOfFuel => OutOfFuel end /\
  (forall w, resolveW r node = Ok w -> fst w + snd w <= length (rData r)).
Proof.
  unfold resolve, resolveW. destruct (_ <=? _)%Z eqn:E1; [split; [reflexivity|intros ? X; discriminate]|].
  set (p := (node - rNodeCount r + rNodeCount r * 8)%Z) in *.
  destruct (zslice (rData r) p (p + 2)) as [sz| | |] eqn:E2; cbn [bind]; try (split; [reflexivity|intros ? X; discriminate]).
  unfold zslice in E2. destruct (p <? 0)%Z eqn:P0; [discriminate|]. destruct (p + 2 <? 0)%Z eqn:P1; [discriminate|].
  destruct (Z.of_nat (length (rData r)) <? p + 2 + Z.of_N (val sz))%Z eqn:E3; [split; [reflexivity|intros ? X; discriminate]|]. cbn [fst snd].
  apply Z.ltb_ge in P0, P1, E3. set (size := Z.of_N (val sz)) in *. assert (0 <= size)%Z by lia.
  split; [|intros w X; injection X as <-; cbn [fst snd]; lia].
  unfold zslice. destruct (Z.ltb_spec (p + 2) 0); [lia|]. destruct (Z.ltb_spec (p + 2 + size) 0); [lia|].
  unfold slice. destruct (Nat.leb_spec (Z.to_nat (p + 2)) (Z.to_nat (p + 2 + size))); [|lia].
  destruct (Nat.leb_spec (Z.to_nat (p + 2 + size)) (length (rData r))); [|lia]. cbn [andb].
  f_equal. f_equal. lia.
Qed.

Lemma find0_W r ip : find0 r ip = match find0W r ip with
  | Ok (node, w, m) => Ok (node, firstn (snd w) (skipn (fst w) (rData r)), m) | Err e => Err e | Panic => Panic | OutOfFuel => OutOfFuel end /\
  (forall node w m, find0W r ip = Ok (node, w, m) -> fst w + snd w <= length (rData r)).
Proof.
  unfold find0, find0W.
  assert (forall x bc, (let* ' (node, mask) := search r x bc in let* body := resolve r node in Ok (node, body, mask)) =
    match (let* ' (node, mask) := search r x bc in let* w := resolveW r node in Ok (node, w, mask)) with
    | Ok (node, w, m) => Ok (node, firstn (snd w) (skipn (fst w) (rData r)), m) | Err e => Err e | Panic => Panic | OutOfFuel => OutOfFuel end /\
    (forall node w m, (let* ' (node, mask) := search r x bc in let* w := resolveW r node in Ok (node, w, mask)) = Ok (node, w, m) -> fst w + snd w <= length (rData r))) as G.
  { intros x bc. destruct (search r x bc) as [[nd mk]| | |]; cbn [bind]; try (split; [reflexivity|intros ? ? ? X; discriminate]).
    destruct (resolve_W r nd) as [-> K]. destruct (resolveW r nd) as [w| | |]; cbn [bind]; try (split; [reflexivity|intros ? ? ? X; discriminate]).
    split; [reflexivity|]. intros ? ? ? X. injection X as <- <- <-. apply K. reflexivity. }
  destruct (negb (is_nil (to4 ip))); [destruct (HasIPv4 _)|destruct (negb (is_nil (to16 ip))); [destruct (HasIPv6 _)|]];
    try apply G; (split; [reflexivity|intros ? ? ? X; discriminate]).
Qed.

(* ---------- records ---------- *)
Lemma set_field_W mem i f v : w_read mem (set_fieldW i f v) = set_field (w_read mem i) f (gs_read mem v).
Proof.
  destruct i. unfold set_fieldW, set_field, w_read.
  repeat match goal with |- context[if ?b then _ else _] => destruct b; try reflexivity end.
Qed.
Lemma make_info_W mem fields values : w_read mem (make_infoW fields values) = make_info fields (map (gs_read mem) values).
Proof.
  unfold make_infoW, make_info. change emptyInfo with (w_read mem emptyW). generalize emptyW as a. revert values.
  induction fields as [|f fs IH]; intros [|v vs] a; cbn [combine map fold_left]; try reflexivity.
  rewrite IH. cbn [fst snd]. rewrite set_field_W. reflexivity.
Qed.
Lemma cont_name_W mem g : gs_read mem (cont_nameW mem g) = cont_name (gs_read mem g).
Proof.
  unfold cont_nameW. destruct (bytes_eqb_spec (cont_name (gs_read mem g)) (gs_read mem g)) as [E|E]; [symmetry; exact E|reflexivity].
Qed.
Lemma upd_map {A B} (f : A -> B) l i x : map f (upd l i x) = upd (map f l) i (f x).
Proof. revert i. induction l as [|a l IH]; intros [|i]; cbn; try reflexivity. rewrite IH. reflexivity. Qed.
Lemma slice_map {A B} (f : A -> B) l a b : slice (map f l) a b = match slice l a b with Ok x => Ok (map f x) | Err e => Err e | Panic => Panic | OutOfFuel => OutOfFuel end.
Proof. unfold slice. rewrite map_length. destruct (_ && _); [|reflexivity]. rewrite skipn_map, firstn_map. reflexivity. Qed.
Lemma idx_map {A B} (f : A -> B) l i : idx (map f l) i = match idx l i with Ok x => Ok (f x) | Err e => Err e | Panic => Panic | OutOfFuel => OutOfFuel end.
Proof. unfold idx. rewrite nth_error_map. destruct (nth_error l i); reflexivity. Qed.

Lemma decodeInfo_W s w off : fst w + snd w <= length (rData (now s)) ->
  decodeInfo (now s) (firstn (snd w) (skipn (fst w) (rData (now s)))) off =
  match decodeInfoW s w off with Ok l => Ok (map (gs_read (lMem s)) l) | Err e => Err e | Panic => Panic | OutOfFuel => OutOfFuel end.
Proof.
  intros L. unfold decodeInfo, decodeInfoW. cbn [now rMeta rData rCont] in *.
  rewrite PropsFile.skipn_two, (Nat.add_comm (fst w)). set (text := firstn (snd w) (skipn (lHead s + fst w) (lMem s))).
  rewrite skipn_length in L.
  assert (map (gs_read (lMem s)) (cuts (lHead s + fst w) 0 text) = split x09 text) as <-.
  { apply cuts_split. unfold text. rewrite firstn_length, skipn_length. f_equal.
    destruct (snd w); [reflexivity|]. lia. }
  rewrite map_length. destruct (_ <? _)%Z; [reflexivity|]. destruct (off <? 0)%Z; [reflexivity|].
  rewrite slice_map. destruct (slice _ _ _) as [ret| | |]; cbn [bind]; try reflexivity.
  destruct (rCont (lR s)) as [i|]; [|reflexivity]. rewrite idx_map. destruct (idx ret i) as [v| | |]; cbn [bind]; try reflexivity.
  rewrite upd_map, cont_name_W. reflexivity.
Qed.

(* ---------- queries ---------- *)
(** The cache as values. *)
Definition cview (s : Live) : QCache := map (fun kp => (fst kp, lread s (snd kp))) (lCache s).
Lemma pget_view s k : qget k (cview s) = match pget k (lCache s) with Some p => Some (lread s p) | None => None end.
Proof.
  unfold cview. induction (lCache s) as [|[k' p] c IH]; [reflexivity|]. cbn [map qget pget fst snd]. destruct (k' =? k)%Z; [reflexivity|exact IH].
Qed.
(** Cached results exist. *)
Definition wfW (s : Live) : Prop := Forall (fun kp => snd kp < length (lHeap s)) (lCache s).
Lemma pget_wf s k p : wfW s -> pget k (lCache s) = Some p -> p < length (lHeap s).
Proof.
  unfold wfW. induction (lCache s) as [|[k' q] c IH]; intros W H; [discriminate|]. inversion W; subst. cbn [pget] in H.
  destruct (k' =? k)%Z; [injection H as <-; assumption|]. apply IH; assumption.
Qed.

(** A query leaves everything as it is, except that it may add a result. *)
Definition grown (s s' : Live) : Prop := lMem s' = lMem s /\ lHead s' = lHead s /\ lR s' = lR s /\ lCache s' = lCache s /\ exists l, lHeap s' = lHeap s ++ l.
Lemma alloc_read s w : lread (fst (alloc s w)) (snd (alloc s w)) = w_read (lMem s) w.
Proof. unfold alloc, lread. cbn [fst snd lMem lHeap]. rewrite app_nth2, Nat.sub_diag by lia. reflexivity. Qed.

Definition found0W (r : Reader) (ip : bytes) : res (Z * (nat * nat) * nat) :=
  match find0W r ip with Err _ => Ok (0%Z, (0, 0), 0) | x => x end.
Lemma found0_W r ip : found0 r ip = match found0W r ip with
  | Ok (node, w, m) => Ok (node, firstn (snd w) (skipn (fst w) (rData r)), m) | Err e => Err e | Panic => Panic | OutOfFuel => OutOfFuel end /\
  (forall node w m, found0W r ip = Ok (node, w, m) -> fst w + snd w <= length (rData r)).
Proof.
  unfold found0, found0W. destruct (find0_W r ip) as [-> K]. destruct (find0W r ip) as [[[nd w] m]|e| |].
  - split; [reflexivity|]. intros ? ? ? X. injection X as <- <- <-. eapply K; reflexivity.
  - split; [reflexivity|]. intros ? ? ? X. injection X as <- <- <-. cbn. lia.
  - split; [reflexivity|]. intros ? ? ? X. discriminate.
  - split; [reflexivity|]. intros ? ? ? X. discriminate.
Qed.

(** The pointer-level query against the value-level one. *)
Lemma QueryInternal_W s ip cache : match QueryInternalW s ip cache with
  | Ok (s', (node, p, m)) => QueryInternal (now s) (cview s) ip cache = Ok (node, lread s' p, m) /\
      (s' = s /\ cache = true /\ pget node (lCache s) = Some p \/
       (cache = true -> pget node (lCache s) = None) /\ p = length (lHeap s) /\ exists w, s' = fst (alloc s w))
  | Err e => QueryInternal (now s) (cview s) ip cache = Err e
  | Panic => QueryInternal (now s) (cview s) ip cache = Panic
  | OutOfFuel => QueryInternal (now s) (cview s) ip cache = OutOfFuel
  end.
Proof.
  unfold QueryInternalW, QueryInternal. change (match find0W (now s) ip with Err _ => Ok (0%Z, (0, 0), 0) | x => x end) with (found0W (now s) ip).
  change (match find0 (now s) ip with Err _ => Ok (0%Z, [], 0) | x => x end) with (found0 (now s) ip).
  destruct (found0_W (now s) ip) as [-> K]. destruct (found0W (now s) ip) as [[[nd w] m]| | |]; cbn [bind]; try reflexivity.
  specialize (K _ _ _ eq_refl). rewrite pget_view. cbn [rMeta now]. change (rMeta (now s)) with (rMeta (lR s)).
  assert (match (match assoc (str "CN") (mLanguages (rMeta (lR s))) with
    | None => Err ErrNoSupportLanguage
    | Some off => let* values := decodeInfoW s w off in
        let '(s', p) := alloc s (make_infoW (mFields (rMeta (lR s))) values) in Ok (s', (nd, p, m)) end) with
    | Ok (s', (node, p, m')) => (match assoc (str "CN") (mLanguages (rMeta (lR s))) with
        | None => Err ErrNoSupportLanguage
        | Some off => let* values := decodeInfo (now s) (firstn (snd w) (skipn (fst w) (rData (now s)))) off in
            Ok (nd, make_info (mFields (rMeta (lR s))) values, m) end) = Ok (node, lread s' p, m') /\ node = nd /\
        p = length (lHeap s) /\ exists w, s' = fst (alloc s w)
    | x => (match assoc (str "CN") (mLanguages (rMeta (lR s))) with
        | None => Err ErrNoSupportLanguage
        | Some off => let* values := decodeInfo (now s) (firstn (snd w) (skipn (fst w) (rData (now s)))) off in
            Ok (nd, make_info (mFields (rMeta (lR s))) values, m) end) = match x with Ok _ => Panic | Err e => Err e | Panic => Panic | OutOfFuel => OutOfFuel end
    end) as G.
  { destruct (assoc _ _) as [off|]; [|reflexivity]. rewrite (decodeInfo_W s w off K). destruct (decodeInfoW s w off) as [l| | |]; cbn [bind]; try reflexivity.
    cbn [alloc]. split; [|split; [reflexivity|split; [reflexivity|eexists; reflexivity]]].
    rewrite <- make_info_W. pose proof (alloc_read s (make_infoW (mFields (rMeta (lR s))) l)) as AR. unfold alloc in AR. cbn [fst snd] in AR. rewrite AR. reflexivity. }
  destruct cache.
  - destruct (pget nd (lCache s)) as [p|] eqn:Ep; [split; [reflexivity|left; repeat split; assumption]|].
    match goal with |- match ?x with Ok _ => _ | Err _ => _ | Panic => _ | OutOfFuel => _ end => destruct x as [[s' [[node p] m']]|e| |] end; try exact G.
    destruct G as (G1 & -> & G3 & G4). split; [exact G1|right; auto].
  - match goal with |- match ?x with Ok _ => _ | Err _ => _ | Panic => _ | OutOfFuel => _ end => destruct x as [[s' [[node p] m']]|e| |] end; try exact G.
    destruct G as (G1 & -> & G3 & G4). split; [exact G1|right]. split; [discriminate|auto].
Qed.

(* ---------- opening ---------- *)
Lemma nth_grow (l l' : list WInfo) p : p < length l -> nth p (l ++ l') emptyW = nth p l emptyW.
Proof. intros H. apply app_nth1. exact H. Qed.
Lemma cview_alloc s w : wfW s -> cview (fst (alloc s w)) = cview s.
Proof.
  unfold cview, wfW. cbn [alloc fst lCache]. intros W. apply map_ext_in. intros [k p] Hin.
  rewrite Forall_forall in W. specialize (W _ Hin). cbn [fst snd] in *. f_equal. unfold lread. cbn [lMem lHeap].
  rewrite nth_grow by assumption. reflexivity.
Qed.
Lemma now_alloc s w : now (fst (alloc s w)) = now s.
Proof. reflexivity. Qed.
Lemma wf_alloc s w : wfW s -> wfW (fst (alloc s w)).
Proof.
  unfold wfW. cbn [alloc fst lCache lHeap]. intros W. eapply Forall_impl; [|exact W]. intros a H. cbv beta in H |- *. rewrite app_length. lia.
Qed.
Lemma BuildCache_W : forall ips s, wfW s -> match BuildCacheW s ips with
  | Ok s' => BuildCache (now s) (cview s) ips = Ok (cview s') /\ wfW s' /\ lMem s' = lMem s /\ lHead s' = lHead s /\ lR s' = lR s
  | Err e => False
  | Panic => BuildCache (now s) (cview s) ips = Panic
  | OutOfFuel => BuildCache (now s) (cview s) ips = OutOfFuel
  end.
Proof.
  induction ips as [|[ip|] ips IH]; intros s W; cbn [BuildCacheW BuildCache].
  - repeat split. assumption.
  - pose proof (QueryInternal_W s ip false) as Q.
    destruct (QueryInternalW s ip false) as [[s' [[node p] m]]|e| |]; rewrite ?Q; try reflexivity.
    + destruct Q as [-> [(_ & X & _)|(_ & -> & w & ->)]]; [discriminate|].
      set (s1 := mkLive _ _ _ _ _). assert (wfW s1) as W1.
      { unfold s1, wfW. cbn [lCache lHeap alloc fst]. constructor; [cbn [snd]; rewrite app_length; cbn [length]; lia|]. exact (wf_alloc s w W). }
      assert (cview s1 = (node, lread (fst (alloc s w)) (length (lHeap s))) :: cview s) as C1.
      { unfold s1. cbn [cview lCache map fst snd]. f_equal. exact (cview_alloc s w W). }
      specialize (IH s1 W1). rewrite C1 in IH. change (now s1) with (now s) in IH.
      destruct (BuildCacheW s1 ips) as [s2| | |]; try exact IH.
    + exact (IH s W).
  - exact (IH s W).
Qed.

Lemma reader_data unmarshal data r : newReaderFromBytes unmarshal data = Ok r -> rData r = skipn (length data - length (rData r)) data.
Proof.
  unfold newReaderFromBytes. intros H. destruct (slice data 0 4) as [h| | |]; cbn [bind] in H; try discriminate.
  destruct (_ <? _)%Z; [discriminate|]. destruct (zslice data 4 _) as [mb| | |]; cbn [bind] in H; try discriminate.
  destruct (unmarshal mb) as [meta|]; [|discriminate]. destruct (_ || _); [discriminate|]. destruct (negb _); [discriminate|].
  destruct (zslice data (4 + Z.of_N (val h)) (Z.of_nat (length data))) as [body| | |] eqn:EB; cbn [bind] in H; try discriminate.
  assert (rData r = body) as ->.
  { destruct (HasIPv4 meta).
    - destruct (v4walk _ _ _ _ _) as [v4| | |]; cbn [bind] in H; try discriminate.
      destruct (initBitsCache _ _ _) as [cache| | |]; cbn [bind] in H; try discriminate. injection H as <-. reflexivity.
    - injection H as <-. reflexivity. }
  unfold zslice in EB. destruct (_ <? 0)%Z; [discriminate|]. destruct (_ <? 0)%Z; [discriminate|].
  apply slice_Ok in EB as [L ->]. rewrite Nat2Z.id. rewrite Nat2Z.id in L.
  rewrite firstn_all2 by (rewrite skipn_length; lia). f_equal. rewrite skipn_length. lia.
Qed.

(** The state after opening, in values: the reader of the file, the cache of C15. *)
Lemma open_W unmarshal data ips s : openW unmarshal data ips = Ok s ->
  exists r, newReaderFromBytes unmarshal data = Ok r /\ now s = r /\ lMem s = data /\ wfW s /\ BuildCache r [] ips = Ok (cview s).
Proof.
  unfold openW. intros H. destruct (newReaderFromBytes unmarshal data) as [r| | |] eqn:O; cbn [bind] in H; try discriminate.
  exists r. split; [reflexivity|]. set (s0 := mkLive _ _ _ _ _) in H.
  assert (now s0 = r) as N0.
  { unfold now, s0. cbn [lR lHead lMem]. rewrite <- (reader_data _ _ _ O). destruct r; reflexivity. }
  assert (wfW s0) as W0 by constructor. pose proof (BuildCache_W ips s0 W0) as B. rewrite H in B. destruct B as (B1 & B2 & B3 & B4 & B5).
  rewrite N0 in B1. split; [|split; [assumption|split; [assumption|exact B1]]].
  rewrite <- N0. unfold now. rewrite B3, B4, B5. reflexivity.
Qed.

(* ---------- histories ---------- *)
(** The caller leaves the bytes of the file alone. *)
Definition keeps_data (l : list event) : Prop := forall mem, ~ In (EvData mem) l.
(** The caller does not store into the result p. *)
Definition keeps (p : nat) (l : list event) : Prop := forall i, ~ In (EvWrite p i) l.

Definition same_db (s s' : Live) : Prop := lMem s' = lMem s /\ lHead s' = lHead s /\ lR s' = lR s /\ lCache s' = lCache s /\ length (lHeap s) <= length (lHeap s').
Lemma same_refl s : same_db s s. Proof. repeat split. lia. Qed.
Lemma same_trans a b c : same_db a b -> same_db b c -> same_db a c.
Proof. intros (A1 & A2 & A3 & A4 & A5) (B1 & B2 & B3 & B4 & B5). repeat split; try congruence. lia. Qed.
Lemma same_now a b : same_db a b -> now b = now a.
Proof. intros (A1 & A2 & A3 & A4 & A5). unfold now. rewrite A1, A2, A3. reflexivity. Qed.
Lemma same_wf a b : same_db a b -> wfW a -> wfW b.
Proof. intros (A1 & A2 & A3 & A4 & A5). unfold wfW. rewrite A4. intros W. eapply Forall_impl; [|exact W]. intros x H. cbn in *. lia. Qed.

Lemma query_step s ip s' p m : QueryW s ip = Ok (s', (p, m)) -> wfW s ->
  same_db s s' /\ p < length (lHeap s') /\ forall q, q < length (lHeap s) -> nth q (lHeap s') emptyW = nth q (lHeap s) emptyW.
Proof.
  unfold QueryW. intros H W. pose proof (QueryInternal_W s ip true) as Q.
  destruct (QueryInternalW s ip true) as [[s1 [[nd p1] m1]]| | |]; cbn [bind] in H; try discriminate. injection H as -> -> ->.
  destruct Q as [_ [(-> & _ & P)|(_ & -> & w & ->)]].
  - split; [apply same_refl|]. split; [eapply pget_wf; eassumption|reflexivity].
  - cbn [alloc fst lHeap]. split; [repeat split; cbn [lHeap]; rewrite app_length; lia|]. split; [rewrite app_length; cbn; lia|].
    intros q Hq. apply nth_grow. exact Hq.
Qed.
Lemma upd_len {A} (l : list A) i x : length (upd l i x) = length l.
Proof. revert i. induction l as [|a l IH]; intros [|i]; cbn; auto. Qed.
Lemma upd_other {A} (l : list A) i j x d : i <> j -> nth j (upd l i x) d = nth j l d.
Proof. revert i j. induction l as [|a l IH]; intros [|i] [|j] H; cbn; auto; try lia. Qed.
Lemma upd_same {A} (l : list A) i x d : i < length l -> nth i (upd l i x) d = x.
Proof. revert i. induction l as [|a l IH]; intros [|i] H; cbn in *; auto; try lia. apply IH. lia. Qed.

Lemma exec_step s e s' : exec s e = Some s' -> wfW s -> (forall mem, e <> EvData mem) ->
  same_db s s' /\ forall q, q < length (lHeap s) -> (forall i, e <> EvWrite q i) -> nth q (lHeap s') emptyW = nth q (lHeap s) emptyW.
Proof.
  intros H W D. destruct e as [ip|p i|mem]; cbn [exec] in H.
  - destruct (QueryW s ip) as [[s1 [p m]]| | |] eqn:Q; try discriminate; injection H as <-.
    + destruct (query_step _ _ _ _ _ Q W) as (A & _ & B). split; [exact A|]. intros q Hq _. apply B. exact Hq.
    + split; [apply same_refl|reflexivity].
  - destruct (p <? length (lHeap s)) eqn:P; [|discriminate]. injection H as <-. cbn [lHeap].
    split; [repeat split; cbn [lHeap]; rewrite upd_len; lia|]. intros q Hq NE. apply upd_other. intros ->. apply (NE i). reflexivity.
  - exfalso. exact (D mem eq_refl).
Qed.
Lemma exec_all_step : forall l s s', exec_all s l = Some s' -> wfW s -> keeps_data l ->
  same_db s s' /\ forall q, q < length (lHeap s) -> keeps q l -> nth q (lHeap s') emptyW = nth q (lHeap s) emptyW.
Proof.
  induction l as [|e l IH]; intros s s' H W D; cbn [exec_all] in H.
  - injection H as <-. split; [apply same_refl|reflexivity].
  - destruct (exec s e) as [s1|] eqn:E; [|discriminate].
    destruct (exec_step _ _ _ E W) as [A B]; [intros mem X; apply (D mem); left; exact X|].
    destruct (IH s1 s' H (same_wf _ _ A W)) as [A' B']; [intros mem X; apply (D mem); right; exact X|].
    split; [eapply same_trans; eassumption|]. intros q Hq K. rewrite B'.
    + apply B; [exact Hq|]. intros i X. apply (K i). left. exact X.
    + destruct A as (_ & _ & _ & _ & A). lia.
    + intros i X. apply (K i). right. exact X.
Qed.

(* ------------------------------------------------------------------ *)
Lemma undisturbed : forall unmarshal data ips s0 before s1 ip s2 p m after s3,
  openW unmarshal data ips = Ok s0 ->
  exec_all s0 before = Some s1 -> QueryW s1 ip = Ok (s2, (p, m)) -> exec_all s2 after = Some s3 ->
  keeps_data (before ++ after) -> keeps p (before ++ after) ->
  exists r, newReaderFromBytes unmarshal data = Ok r /\ Query r [] ip = Ok (lread s3 p, m).
Proof.
  intros u data ips s0 before s1 ip s2 p m after s3 O X1 Q X2 D K.
  destruct (open_W _ _ _ _ O) as (r & R & N0 & M0 & W0 & BC). exists r. split; [exact R|].
  assert (keeps_data before /\ keeps_data after) as [Db Da] by (split; intros x Y; apply (D x); apply in_or_app; auto).
  assert (keeps p before /\ keeps p after) as [Kb Ka] by (split; intros x Y; apply (K x); apply in_or_app; auto).
  destruct (exec_all_step _ _ _ X1 W0 Db) as [S1 H1]. pose proof (same_wf _ _ S1 W0) as W1.
  destruct (query_step _ _ _ _ _ Q W1) as (S2 & P2 & H2). pose proof (same_wf _ _ S2 W1) as W2.
  destruct (exec_all_step _ _ _ X2 W2 Da) as [S3 H3].
  assert (lread s3 p = lread s2 p) as ->.
  { unfold lread. rewrite H3 by assumption. destruct S3 as (-> & _). reflexivity. }
  rewrite <- (C15_build_cache_transparent u data r [ips] (cview s0) R); [|cbn [build_caches]; rewrite BC; reflexivity].
  pose proof (QueryInternal_W s1 ip true) as QI. unfold QueryW in Q.
  destruct (QueryInternalW s1 ip true) as [[s' [[nd p'] m']]| | |]; cbn [bind] in Q; try discriminate. injection Q as -> -> ->.
  rewrite (same_now _ _ S1), N0 in QI. unfold Query. destruct QI as [QI [(-> & _ & PG)|(PG & -> & w & ->)]].
  - (* from the cache *)
    assert (p < length (lHeap s0)) as P0.
    { apply (pget_wf s0 nd); [exact W0|]. destruct S1 as (_ & _ & _ & <- & _). exact PG. }
    assert (lread s1 p = lread s0 p) as E.
    { unfold lread. rewrite H1 by assumption. destruct S1 as (-> & _). reflexivity. }
    unfold QueryInternal in *. change (match find0 r ip with Err _ => Ok (0%Z, [], 0) | x => x end) with (found0 r ip) in *.
    destruct (found0 r ip) as [[[nd0 body] m0]| | |]; cbn [bind] in *; try discriminate.
    rewrite pget_view in *. destruct S1 as (_ & _ & _ & S14 & _). rewrite S14 in *.
    destruct (pget nd0 (lCache s0)) as [p0|] eqn:P1; cbn [bind].
    + assert (nd0 = nd) as -> by congruence. rewrite PG in P1. injection P1 as <-. cbn [bind]. rewrite E. f_equal. f_equal. congruence.
    + exfalso. destruct (assoc _ _) as [off|]; [|discriminate]. destruct (decodeInfo _ _ _); cbn [bind] in QI; try discriminate.
      assert (nd0 = nd) as -> by congruence. congruence.
  - (* a new result *)
    specialize (PG eq_refl). unfold QueryInternal in *. change (match find0 r ip with Err _ => Ok (0%Z, [], 0) | x => x end) with (found0 r ip) in *.
    destruct (found0 r ip) as [[[nd0 body] m0]| | |]; cbn [bind] in *; try discriminate.
    rewrite pget_view in *. destruct S1 as (_ & _ & _ & S14 & _). rewrite S14 in *.
    destruct (pget nd0 (lCache s0)) as [p0|] eqn:P1; cbn [bind].
    + exfalso. assert (nd0 = nd) as -> by congruence. congruence.
    + rewrite QI. reflexivity.
Qed.

Lemma any_state u data ips s0 before s1 ip : openW u data ips = Ok s0 -> exec_all s0 before = Some s1 -> keeps_data before ->
  exists r, newReaderFromBytes u data = Ok r /\
    match QueryW s1 ip with
    | Ok (_, (_, m)) => exists i, Query r [] ip = Ok (i, m)
    | Err e => Query r [] ip = Err e
    | Panic => Query r [] ip = Panic
    | OutOfFuel => Query r [] ip = OutOfFuel
    end.
Proof.
  intros O X1 Db. destruct (open_W _ _ _ _ O) as (r & R & N0 & M0 & W0 & BC). exists r. split; [exact R|].
  destruct (exec_all_step _ _ _ X1 W0 Db) as [S1 _].
  rewrite <- (C15_build_cache_transparent u data r [ips] (cview s0) R); [|cbn [build_caches]; rewrite BC; reflexivity].
  pose proof (QueryInternal_W s1 ip true) as QI. rewrite (same_now _ _ S1), N0 in QI. unfold QueryW, Query.
  assert (forall x, (QueryInternal r (cview s1) ip true = x ->
     match x with
     | Ok (nd, i, m) => exists i', QueryInternal r (cview s0) ip true = Ok (nd, i', m)
     | _ => QueryInternal r (cview s0) ip true = x end)) as G.
  { intros x <-. unfold QueryInternal.
    change (match find0 r ip with Err _ => Ok (0%Z, [], 0) | x => x end) with (found0 r ip).
    destruct (found0 r ip) as [[[nd body] m]| | |]; cbn [bind]; try reflexivity.
    rewrite !pget_view. destruct S1 as (_ & _ & _ & -> & _). destruct (pget nd (lCache s0)) as [p|]; [eauto|].
    destruct (assoc _ _) as [off|]; [|reflexivity]. destruct (decodeInfo r body off); cbn [bind]; try reflexivity. eauto. }
  destruct (QueryInternalW s1 ip true) as [[s' [[nd p] m]]|e| |]; cbn [bind].
  - destruct QI as [QI _]. destruct (G _ QI) as [i' ->]. cbn [bind]. eauto.
  - pose proof (G _ QI) as G'. cbn in G'. rewrite G'. reflexivity.
  - pose proof (G _ QI) as G'. cbn in G'. rewrite G'. reflexivity.
  - pose proof (G _ QI) as G'. cbn in G'. rewrite G'. reflexivity.
Qed.

(** Opening at this level and opening in the facade (db/query/query.go) are the same. *)
Lemma facade_open E ipList data s0 : openW (jUnMeta E) data (map cache_ip ipList) = Ok s0 ->
  NewDbFromBytes (serverFormats E) ipList (str ".ipdb") data = Ok (QIpdb (now s0) (cview s0)).
Proof.
  intros O. destruct (open_W _ _ _ _ O) as (r & R & <- & _ & _ & BC). unfold NewDbFromBytes.
  change (GetQueryFormat (serverFormats E) (str ".ipdb")) with (Some (fun data => let* ' (r, c) := newQuerier (jUnMeta E) data in Ok (QIpdb r c))).
  cbv beta iota. unfold newQuerier. rewrite R. cbn [bind q_build]. rewrite BC. reflexivity.
Qed.

(* ------------------------------------------------------------------ *)
(** C65 *)
(** A file that opens here opens in the facade, and the other way round. *)
Theorem C65_open : forall E ipList data,
  (exists s, openW (jUnMeta E) data (map cache_ip ipList) = Ok s) <->
  (exists q, NewDbFromBytes (serverFormats E) ipList (str ".ipdb") data = Ok q).
Proof.
  intros E il data. split.
  - intros [s O]. eexists. eapply facade_open; eassumption.
  - intros [q H]. destruct (open_query _ _ _ _ H) as (r & c & -> & R & _). unfold openW. rewrite R. cbn [bind].
    set (s0 := mkLive _ _ _ _ _). assert (now s0 = r) as N0.
    { unfold now, s0. cbn [lR lHead lMem]. rewrite <- (reader_data _ _ _ R). destruct r; reflexivity. }
    assert (wfW s0) as W0 by constructor. pose proof (BuildCache_W (map cache_ip il) s0 W0) as B.
    destruct (BuildCacheW s0 (map cache_ip il)) as [s| | |]; [eauto| | |]; exfalso; [exact B| |];
      revert H; unfold NewDbFromBytes;
      change (GetQueryFormat (serverFormats E) (str ".ipdb")) with (Some (fun data => let* ' (r, c) := newQuerier (jUnMeta E) data in Ok (QIpdb r c)));
      cbv beta iota; unfold newQuerier; rewrite R; cbn [bind q_build]; rewrite N0 in B; change (cview s0) with (@nil (Z * IpInfo)) in B; rewrite B; discriminate.
Qed.
Print Assumptions C65_open.

(** Whatever callers asked for and stored before and after: a result they did not store into
    reads as the answer of the file, and its prefix length is that of the file. *)
Theorem C65_undisturbed : forall E ipList data s0 before s1 ip s2 p m after s3,
  openW (jUnMeta E) data (map cache_ip ipList) = Ok s0 ->
  exec_all s0 before = Some s1 -> QueryW s1 ip = Ok (s2, (p, m)) -> exec_all s2 after = Some s3 ->
  keeps_data (before ++ after) -> keeps p (before ++ after) ->
  exists q, NewDbFromBytes (serverFormats E) ipList (str ".ipdb") data = Ok q /\ DbQuery q ip = Ok (Some (lread s3 p), m, None).
Proof.
  intros E il data s0 before s1 ip s2 p m after s3 O X1 Q X2 D K. eexists. split; [eapply facade_open; exact O|].
  destruct (open_query _ _ _ _ (facade_open _ _ _ _ O)) as (r & c & _ & R & DQ). rewrite DQ.
  destruct (undisturbed _ _ _ _ _ _ _ _ _ _ _ _ O X1 Q X2 D K) as (r' & R' & H). assert (r' = r) as -> by congruence. rewrite H. reflexivity.
Qed.
Print Assumptions C65_undisturbed.

(** Stores into results never change the prefix length, an error or a crash of a later query. *)
Theorem C65_prefix : forall E ipList data s0 before s1 ip,
  openW (jUnMeta E) data (map cache_ip ipList) = Ok s0 -> exec_all s0 before = Some s1 -> keeps_data before ->
  exists q, NewDbFromBytes (serverFormats E) ipList (str ".ipdb") data = Ok q /\
    match QueryW s1 ip with
    | Ok (_, (_, m)) => exists i, DbQuery q ip = Ok (Some i, m, None)
    | Err e => DbQuery q ip = Ok (None, 0, Some e)
    | Panic => DbQuery q ip = Panic
    | OutOfFuel => DbQuery q ip = OutOfFuel
    end.
Proof.
  intros E il data s0 before s1 ip O X1 D. eexists. split; [eapply facade_open; exact O|].
  destruct (open_query _ _ _ _ (facade_open _ _ _ _ O)) as (r & c & _ & R & DQ). rewrite DQ.
  destruct (any_state _ _ _ _ _ _ ip O X1 D) as (r' & R' & H). assert (r' = r) as -> by congruence.
  destruct (QueryW s1 ip) as [[s' [p m]]| | |].
  - destruct H as [i ->]. exists i. reflexivity.
  - rewrite H. reflexivity.
  - rewrite H. reflexivity.
  - rewrite H. reflexivity.
Qed.
Print Assumptions C65_prefix.

(** Two queries that return the same pointer return one that was made when the file was opened. *)
Theorem C65_shared : forall unmarshal data ips s0 before s1 ip1 s2 p m1 between s3 ip2 s4 m2,
  openW unmarshal data ips = Ok s0 -> exec_all s0 before = Some s1 -> QueryW s1 ip1 = Ok (s2, (p, m1)) ->
  exec_all s2 between = Some s3 -> QueryW s3 ip2 = Ok (s4, (p, m2)) -> keeps_data (before ++ between) ->
  p < length (lHeap s0).
Proof.
  intros u data ips s0 before s1 ip1 s2 p m1 between s3 ip2 s4 m2 O X1 Q1 X2 Q2 D.
  destruct (open_W _ _ _ _ O) as (r & R & N0 & M0 & W0 & BC).
  assert (keeps_data before /\ keeps_data between) as [Db Da] by (split; intros x Y; apply (D x); apply in_or_app; auto).
  destruct (exec_all_step _ _ _ X1 W0 Db) as [S1 _]. pose proof (same_wf _ _ S1 W0) as W1.
  destruct (query_step _ _ _ _ _ Q1 W1) as (S2 & P2 & _). pose proof (same_wf _ _ S2 W1) as W2.
  destruct (exec_all_step _ _ _ X2 W2 Da) as [S3 _]. pose proof (same_wf _ _ S3 W2) as W3.
  pose proof (QueryInternal_W s3 ip2 true) as QI. unfold QueryW in Q2.
  destruct (QueryInternalW s3 ip2 true) as [[s' [[nd p'] m']]| | |]; cbn [bind] in Q2; try discriminate. injection Q2 as -> -> ->.
  destruct QI as [_ [(_ & _ & PG)|(_ & -> & _)]].
  - apply (pget_wf s0 nd); [exact W0|]. destruct S1 as (_ & _ & _ & C1 & _), S2 as (_ & _ & _ & C2 & _), S3 as (_ & _ & _ & C3 & _).
    rewrite <- C1, <- C2, <- C3. exact PG.
  - exfalso. destruct S3 as (_ & _ & _ & _ & L3). lia.
Qed.
Print Assumptions C65_shared.

(** Every address of the list that a database is opened with is answered by such a shared
    result, in every history. *)
Lemma built_keys : forall ips s s', BuildCacheW s ips = Ok s' -> (forall k p, pget k (lCache s) = Some p -> exists p', pget k (lCache s') = Some p').
Proof.
  induction ips as [|[ip|] ips IH]; intros s s' H k p P; cbn [BuildCacheW] in H.
  - injection H as <-. eauto.
  - destruct (QueryInternalW s ip false) as [[s1 [[nd q] m]]| | |] eqn:Q; try discriminate.
    + destruct (nd =? k)%Z eqn:Ek.
      * eapply (IH _ _ H k q). cbn [lCache pget]. rewrite Ek. reflexivity.
      * eapply (IH _ _ H k p). cbn [lCache pget]. rewrite Ek.
        pose proof (QueryInternal_W s ip false) as QI. rewrite Q in QI. destruct QI as [_ [(_ & X & _)|(_ & _ & w & ->)]]; [discriminate|]. exact P.
    + eapply IH; eassumption.
  - eapply IH; eassumption.
Qed.
Lemma built_listed : forall ips s s' ip, wfW s -> BuildCacheW s ips = Ok s' -> In (Some ip) ips ->
  forall nd w m, found0W (now s) ip = Ok (nd, w, m) -> (exists x, QueryInternal (now s) [] ip false = Ok x) -> exists p, pget nd (lCache s') = Some p.
Proof.
  induction ips as [|o ips IH]; intros s s' ip W H Hin nd w m F [x X]; [destruct Hin|]. destruct Hin as [->|Hin].
  - cbn [BuildCacheW] in H. pose proof (QueryInternal_W s ip false) as QI.
    assert (QueryInternal (now s) (cview s) ip false = Ok x) as X' by (rewrite <- X; unfold QueryInternal; reflexivity).
    rewrite X' in QI. destruct (QueryInternalW s ip false) as [[s1 [[nd1 q] m1]]| | |] eqn:Q; try discriminate.
    assert (nd1 = nd) as ->.
    { unfold QueryInternalW in Q. change (match find0W (now s) ip with Err _ => Ok (0%Z, (0, 0), 0) | x => x end) with (found0W (now s) ip) in Q.
      rewrite F in Q. cbn [bind] in Q. destruct (assoc _ _); [|discriminate]. destruct (decodeInfoW _ _ _); cbn [bind alloc] in Q; try discriminate. congruence. }
    eapply (built_keys _ _ _ H nd q). cbn [lCache pget]. rewrite Z.eqb_refl. reflexivity.
  - cbn [BuildCacheW] in H. destruct o as [ip0|]; [|eapply IH; eauto].
    pose proof (QueryInternal_W s ip0 false) as QI.
    destruct (QueryInternalW s ip0 false) as [[s1 [[nd1 q] m1]]| | |] eqn:Q; try discriminate; [|eapply IH; eauto].
    destruct QI as [_ [(_ & Y & _)|(_ & -> & w1 & ->)]]; [discriminate|].
    eapply (IH _ _ ip _ H Hin nd w m); [exact F|eauto]. Unshelve.
    unfold wfW. cbn [lCache lHeap alloc fst]. constructor; [cbn [snd]; rewrite app_length; cbn [length]; lia|]. exact (wf_alloc s w1 W).
Qed.
Theorem C65_listed : forall E ipList data s0 before s1 text ip i m,
  openW (jUnMeta E) data (map cache_ip ipList) = Ok s0 -> exec_all s0 before = Some s1 -> keeps_data before ->
  In text ipList -> ParseIP text = Some ip ->
  (exists q, NewDbFromBytes (serverFormats E) ipList (str ".ipdb") data = Ok q /\ QueryStr q text = Ok (Some i, m, None)) ->
  exists p, QueryW s1 ip = Ok (s1, (p, m)) /\ p < length (lHeap s0).
Proof.
  intros E il data s0 before s1 text ip i m O X1 D Hin HP (q & HQ & HA).
  destruct (open_query _ _ _ _ HQ) as (r & c & -> & R & DQ). unfold QueryStr in HA. rewrite HP, DQ in HA.
  destruct (open_W _ _ _ _ O) as (r' & R' & N0 & M0 & W0 & BC). assert (r' = r) as -> by congruence.
  destruct (exec_all_step _ _ _ X1 W0 D) as [S1 _].
  assert (Query r [] ip = Ok (i, m)) as QQ by (unfold triple in HA; destruct (Query r [] ip) as [[? ?]| | |]; try discriminate; congruence).
  unfold Query in QQ. pose proof (open_rinv _ _ _ R) as RI. rewrite QueryInternal_cache in QQ by (try assumption; intros ? ? X; discriminate X).
  destruct (QueryInternal r [] ip false) as [[[nd i'] m']| | |] eqn:QI; cbn [bind] in QQ; try discriminate.
  assert (i' = i /\ m' = m) as [-> ->] by (split; congruence).
  assert (exists w, found0W r ip = Ok (nd, w, m)) as [w F].
  { rewrite QueryInternal_false in QI. change (match find0 r ip with Err _ => Ok (0%Z, [], 0) | x => x end) with (found0 r ip) in QI.
    destruct (found0_W r ip) as [F0 _]. rewrite F0 in QI. destruct (found0W r ip) as [[[nd1 w] m1]| | |]; cbn [bind] in QI; try discriminate.
    destruct (info_of r _); cbn [bind] in QI; try discriminate. exists w. assert (nd1 = nd /\ m1 = m) as [-> ->] by (split; congruence). reflexivity. }
  unfold openW in O. rewrite R in O. cbn [bind] in O. set (sa := mkLive _ _ _ _ _) in O.
  assert (now sa = r) as Na.
  { unfold now, sa. cbn [lR lHead lMem]. rewrite <- (reader_data _ _ _ R). destruct r; reflexivity. }
  destruct (built_listed _ sa s0 ip ltac:(constructor) O) with (nd := nd) (w := w) (m := m) as [p P].
  - apply in_map_iff. exists text. split; [|exact Hin]. unfold cache_ip. destruct text; [cbn in HP; discriminate|]. cbn [is_nil]. rewrite HP. reflexivity.
  - rewrite Na. exact F.
  - rewrite Na. eauto.
  - exists p. split; [|eapply pget_wf; eassumption].
    unfold QueryW, QueryInternalW. change (match find0W (now s1) ip with Err _ => Ok (0%Z, (0, 0), 0) | x => x end) with (found0W (now s1) ip).
    rewrite (same_now _ _ S1), N0, F. cbn [bind]. destruct S1 as (_ & _ & _ & -> & _). rewrite P. reflexivity.
Qed.
Print Assumptions C65_listed.

(** Storing into a shared result changes the answer of the database: whoever asks next reads
    what was stored, not what the file says. *)
Theorem C65_spoiled : forall s ip p m i, QueryW s ip = Ok (s, (p, m)) -> p < length (lHeap s) ->
  exists s', exec s (EvWrite p i) = Some s' /\ QueryW s' ip = Ok (s', (p, m)) /\ lread s' p = i.
Proof.
  intros s ip p m i Q L. cbn [exec]. destruct (Nat.ltb_spec p (length (lHeap s))); [|lia]. eexists. split; [reflexivity|].
  set (s' := mkLive _ _ _ _ _). split.
  - pose proof (QueryInternal_W s ip true) as QI. unfold QueryW in *. 
    destruct (QueryInternalW s ip true) as [[s1 [[nd p1] m1]]| | |] eqn:E; cbn [bind] in Q; try discriminate.
    assert (s1 = s /\ p1 = p /\ m1 = m) as (-> & -> & ->) by (injection Q as -> -> ->; auto).
    destruct QI as [_ [(_ & _ & PG)|(_ & _ & w & Y)]].
    + unfold QueryInternalW in *. change (now s') with (now s). change (lCache s') with (lCache s).
      destruct (match find0W (now s) ip with Err _ => Ok (0%Z, (0, 0), 0) | x => x end) as [[[nd0 w] m0]| | |]; cbn [bind] in *; try discriminate.
      destruct (pget nd0 (lCache s)) as [p0|] eqn:P0; cbn [bind].
      * injection E as -> -> ->. reflexivity.
      * exfalso. destruct (assoc _ _); [|discriminate]. destruct (decodeInfoW _ _ _); cbn [bind alloc] in E; try discriminate.
        injection E as E1 E2 E3 E4. subst nd0. congruence.
    + exfalso. apply (f_equal (fun x => length (lHeap x))) in Y. cbn [alloc fst lHeap] in Y. rewrite app_length in Y. cbn in Y. lia.
  - unfold lread, s'. cbn [lMem lHeap]. rewrite upd_same by assumption. destruct i. reflexivity.
Qed.
Print Assumptions C65_spoiled.

(** A case: the file of C64_case opened with a list that names 1::.  Two callers ask, one of
    them stores into a result of its own: everything reads as in the file. *)
Definition info_A : IpInfo := mkInfo (str "A") [] [] [] [] [] [] [].
Definition info_Z : IpInfo := mkInfo (str "Z") [] [] [] [] [] [] [].
Definition v6addr (b : byte) : bytes := [x00; b] ++ repeat x00 14.
Example C65_case : exists s0 s1 s2 s3 p,
  openW (jUnMeta case_env) gap_file (map cache_ip [str "1::"]) = Ok s0 /\
  exec_all s0 [EvQuery (v6addr x02)] = Some s1 /\ QueryW s1 (v6addr x01) = Ok (s2, (p, 1)) /\
  exec_all s2 [EvQuery (v6addr x02)] = Some s3 /\ lread s3 p = info_A /\
  keeps_data ([EvQuery (v6addr x02)] ++ [EvQuery (v6addr x02)]) /\ keeps p ([EvQuery (v6addr x02)] ++ [EvQuery (v6addr x02)]).
Proof.
  assert (match openW (jUnMeta case_env) gap_file (map cache_ip [str "1::"]) with
    | Ok s0 => match exec_all s0 [EvQuery (v6addr x02)] with
      | Some s1 => match QueryW s1 (v6addr x01) with
        | Ok (s2, (p, m)) => match exec_all s2 [EvQuery (v6addr x02)] with Some s3 => Some (lread s3 p, m) | None => None end
        | _ => None end
      | None => None end
    | _ => None end = Some (info_A, 1)) as H by (vm_compute; reflexivity).
  destruct (openW _ _ _) as [s0| | |]; try discriminate. destruct (exec_all s0 _) as [s1|] eqn:E1; try discriminate.
  destruct (QueryW s1 _) as [[s2 [p m]]| | |] eqn:E2; try discriminate. destruct (exec_all s2 _) as [s3|] eqn:E3; try discriminate.
  exists s0, s1, s2, s3, p. assert (m = 1) as -> by congruence. repeat split; try assumption; try congruence.
  - intros mem [X|[X|[]]]; discriminate.
  - intros i [X|[X|[]]]; discriminate.
Qed.
(** Stores of one caller reach another one: the premise about stores is needed. *)
Example C65_spoiled_case : exists s0 s1 s2 p,
  openW (jUnMeta case_env) gap_file (map cache_ip [str "1::"]) = Ok s0 /\
  QueryW s0 (v6addr x01) = Ok (s0, (p, 1)) /\ lread s0 p = info_A /\
  exec_all s0 [EvWrite p info_Z] = Some s1 /\ QueryW s1 (v6addr x02) = Ok (s2, (p, 1)) /\ lread s2 p = info_Z.
Proof.
  assert (match openW (jUnMeta case_env) gap_file (map cache_ip [str "1::"]) with
    | Ok s0 => match QueryW s0 (v6addr x01) with
      | Ok (s1, (p, m)) => match exec_all s0 [EvWrite 0 info_Z] with
        | Some s2 => match QueryW s2 (v6addr x02) with
          | Ok (s3, (p', m')) => Some (p, m, p', m', lread s0 p, lread s3 p', length (lHeap s0)) | _ => None end
        | None => None end
      | _ => None end
    | _ => None end = Some (0, 1, 0, 1, info_A, info_Z, 1)) as H by (vm_compute; reflexivity).
  destruct (openW _ _ _) as [s0| | |]; try discriminate. destruct (QueryW s0 (v6addr x01)) as [[s1 [p m]]| | |] eqn:E1; try discriminate.
  destruct (exec_all s0 _) as [s2|] eqn:E2; try discriminate. destruct (QueryW s2 _) as [[s3 [p' m']]| | |] eqn:E3; try discriminate.
  assert (p = 0 /\ m = 1 /\ p' = 0 /\ m' = 1 /\ length (lHeap s0) = 1) as (-> & -> & -> & -> & HL) by (repeat split; congruence).
  assert (lread s0 0 = info_A) as HA by congruence. assert (lread s3 0 = info_Z) as HZ by congruence. exists s0, s2, s3, 0. split; [reflexivity|].
  assert (s1 = s0) as ->.
  { pose proof (QueryInternal_W s0 (v6addr x01) true) as QI. unfold QueryW in E1.
    destruct (QueryInternalW s0 (v6addr x01) true) as [[s' [[nd q] mm]]| | |]; cbn [bind] in E1; try discriminate.
    injection E1 as -> -> ->. destruct QI as [_ [(-> & _)|(_ & X & _)]]; [reflexivity|]. exfalso. lia. }
  split; [exact E1|]. split; [exact HA|]. split; [exact E2|]. split; [exact E3|exact HZ].
Qed.
(** Overwriting the bytes that were given to NewDbFromBytes changes results already returned
    (and answers to come): the premise about the bytes is needed. *)
Example C65_data_case : exists s0 s1 p s2,
  openW (jUnMeta case_env) gap_file [] = Ok s0 /\ QueryW s0 (v6addr x01) = Ok (s1, (p, 1)) /\ lread s1 p = info_A /\
  exec_all s1 [EvData (firstn (length gap_file - 1) gap_file ++ str "Z")] = Some s2 /\ lread s2 p = info_Z.
Proof.
  assert (match openW (jUnMeta case_env) gap_file [] with
    | Ok s0 => match QueryW s0 (v6addr x01) with
      | Ok (s1, (p, m)) => match exec_all s1 [EvData (firstn (length gap_file - 1) gap_file ++ str "Z")] with
        | Some s2 => Some (m, lread s1 p, lread s2 p) | None => None end
      | _ => None end
    | _ => None end = Some (1, info_A, info_Z)) as H by (vm_compute; reflexivity).
  destruct (openW _ _ _) as [s0| | |]; try discriminate. destruct (QueryW s0 (v6addr x01)) as [[s1 [p m]]| | |] eqn:E1; try discriminate.
  destruct (exec_all s1 _) as [s2|] eqn:E2; try discriminate.
  assert (m = 1) as -> by congruence. assert (lread s1 p = info_A) as HA by congruence. assert (lread s2 p = info_Z) as HZ by congruence. exists s0, s1, p, s2. split; [reflexivity|]. split; [exact E1|]. split; [exact HA|]. split; [exact E2|exact HZ].
Qed.

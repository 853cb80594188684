(** Properties of the dataset operations, continued: C29 (packing), C30, C48. *)
From Coq Require Import Permutation.
From Verif Require Import IpNet Inf Ipdb Spec SpecIpdb PropsIpdb Tables Operate SpecOperate OperateProofs OperateProofs2 MergeProofs PropsOperate PropsOperate2.
Open Scope nat_scope.

Lemma store_all_forall {V} (P : V -> Prop) (l : list (block * V)) :
  Forall (fun e => P (snd e)) l -> Forall (fun e => P (snd e)) (store_all l).
Proof.
  unfold store_all. assert (forall m, Forall (fun e => P (snd e)) m -> Forall (fun e => P (snd e)) l ->
    Forall (fun e => P (snd e)) (fold_left (fun m e => store m (fst e) (snd e)) l m)) as G.
  { induction l as [|e l IH]; intros m Hm Hl; [assumption|]. cbn [fold_left]. inversion Hl; subst. apply IH; [|assumption].
    unfold store. destruct (existsb _ m); [assumption|]. constructor; [assumption|].
    apply Forall_forall. intros x Hx. apply filter_In in Hx as [Hx _]. rewrite Forall_forall in Hm. auto. }
  intros H. apply G; [constructor|assumption].
Qed.

(** C29, finding: a dataset without province column packed after AttachDistrict
    rejects every query. *)
Theorem C29_no_province_pack : forall grow marshal unmarshal now d bs,
  ~ In (str "province") (dFields (contents d)) -> ~ In (str "district") (dFields (contents d)) ->
  rectangular (contents d) -> dFields (contents d) <> [] -> plain_columns (dFields (contents d)) ->
  Forall2 row_ok (dIps (contents d)) bs ->
  (forall ipd, dFields ipd = dFields (contents d) ++ [str "district"] -> dVersion ipd = dVersion (contents d) ->
     json_ok marshal unmarshal now ipd) ->
  exists d' data, AttachDistrict grow d = Ok d' /\ pack marshal now (contents d') = Ok data /\
    ((Z.of_nat (length data) < 2 ^ 32)%Z ->
     exists q, newQuerier unmarshal data = Ok (q, []) /\
       forall ip, valid_ip ip -> Query q [] ip = Err ErrDatabaseError).
Proof.
  intros grow marshal unmarshal now d bs H1 H2 R NE PC RO JO.
  destruct (C29_no_province grow d H1 H2) as (d' & E & F & Ve & I & _).
  destruct (C12_pack_query marshal unmarshal now (contents d') bs) as (data & P & Q).
  - rewrite I. assumption.
  - rewrite F. intros f Hf Hn. apply in_app_or in Hf as [Hf|[<-|[]]]; [apply PC; assumption|]. vm_compute. discriminate.
  - rewrite F. destruct (dFields (contents d)); discriminate.
  - apply JO; assumption.
  - exists d', data. split; [assumption|]. split; [assumption|]. intros Hs. destruct (Q Hs) as (q & O & A). exists q. split; [assumption|].
    intros ip V. rewrite A by assumption. unfold answer, no_record. rewrite F, I, app_length. cbn [length].
    assert (0 < length (dFields (contents d))) as L by (destruct (dFields (contents d)); [congruence|cbn; lia]).
    replace (length (dFields (contents d)) + 1 =? 1) with false by lia.
    destruct (holds_family _ _); [|reflexivity].
    unfold lookup. destruct (find _ _) as [[b row]|] eqn:El; [|reflexivity].
    apply find_some in El as [El _].
    assert (Forall (fun e : block * list bytes => length (snd e) = length (dFields (contents d))) (store_all (combine bs (map fvals (dIps (contents d)))))) as SA.
    { apply (store_all_forall (fun v => length v = length (dFields (contents d)))). apply Forall_forall. intros [b' v'] Hin. apply in_combine_r in Hin.
      cbn [snd]. apply in_map_iff in Hin as (r & <- & Hr). unfold rectangular in R. rewrite Forall_forall in R. auto. }
    rewrite Forall_forall in SA. specialize (SA _ El). cbn [snd] in SA.
    replace (length row <? length (dFields (contents d)) + 1) with true by lia. reflexivity.
Qed.
Print Assumptions C29_no_province_pack.

(* ------------------------------------------------------------------ *)
(** C30 *)
Lemma split_first sep l : exists p rest, split sep l = p :: rest /\ no_byte sep p /\ (l = p \/ exists r, l = p ++ sep :: r).
Proof.
  induction l as [|c l IH]; cbn.
  - exists [], []. split; [reflexivity|]. split; [intros []|left; reflexivity].
  - destruct (byte_eqb_spec c sep) as [->|N].
    + exists [], (split sep l). split; [reflexivity|]. split; [intros []|]. right. exists l. reflexivity.
    + destruct IH as (p & rest & -> & Np & H). exists (c :: p), rest. split; [reflexivity|]. split.
      * intros [E|E]; [congruence|contradiction].
      * destruct H as [->|[r ->]]; [left; reflexivity|right; exists r; reflexivity].
Qed.

Lemma pick_line_spec l : line_name l (pick_line l).
Proof.
  destruct (split_first x2f l) as (p & rest & E & N & H). unfold pick_line. rewrite E. cbn [hd].
  exists p. split; [split; assumption|].
  destruct p as [|c p]; [left; split; reflexivity|]. cbn [is_nil negb andb]. right.
  destruct (bytes_eqb_spec (c :: p) (str "电信")) as [->|N1]; [left; split; [left; reflexivity|reflexivity]|].
  destruct (bytes_eqb_spec (c :: p) (str "联通")) as [->|N2]; [left; split; [right; left; reflexivity|reflexivity]|].
  destruct (bytes_eqb_spec (c :: p) (str "移动")) as [->|N3]; [left; split; [right; right; left; reflexivity|reflexivity]|].
  cbn [negb andb].
  destruct (bytes_eqb_spec (c :: p) (str "铁通")) as [->|N4]; [right; left; split; reflexivity|].
  right. right. split; [|reflexivity]. intros [F|[F|[F|[F|[F|[]]]]]]; congruence.
Qed.

(** The line database answers or reports an error for the first address of every network of
    the dataset, it does not crash. *)
Definition answers (q : bytes -> res IpInfo) (d : HData) : Prop :=
  forall r, In r (dIps (contents d)) -> (exists i, q (nIP (cidr r)) = Ok i) \/ (exists e, q (nIP (cidr r)) = Err e).
Definition answers_at (q : bytes -> res IpInfo) (ip : bytes) : Prop := (exists i, q ip = Ok i) \/ (exists e, q ip = Err e).
Lemma answers_row q d r : answers q d -> In r (hRows d) -> answers_at q (nIP (fst r)).
Proof. intros A I. apply (A (mkRaw (fst r) (view (hHeap d) (snd r)))). unfold contents. cbn [dIps]. apply in_map_iff. exists r. auto. Qed.

(** The line the code computes for a row with values v. *)
Definition line_of (q : bytes -> res IpInfo) (pc : nat) (n : IPNet) (v : list bytes) : bytes :=
  if bytes_eqb (nth pc v []) china then match q (nIP n) with Ok i => pick_line (iLine i) | _ => [] end else [].

Lemma row_line_ok q pc n v : answers_at q (nIP n) -> pc < length v -> row_line q pc n v = Ok (line_of q pc n v).
Proof.
  intros A L. unfold row_line, line_of, queryLine. rewrite idx_b by assumption. cbn [bind].
  destruct (bytes_eqb _ china); [|reflexivity]. destruct A as [[i ->]|[e ->]]; reflexivity.
Qed.

Lemma line_of_spec q pc n v : answers_at q (nIP n) -> line_for q pc (mkRaw n v) (line_of q pc n v).
Proof.
  intros A. unfold line_for, line_of. cbn [fvals cidr]. change (str "中国") with china.
  destruct (bytes_eqb _ china); [|reflexivity]. destruct A as [[i ->]|[e ->]]; [apply pick_line_spec|reflexivity].
Qed.

(** Without a line column the line of its own network is appended to every row,
    unless rows share a slice with spare capacity. *)
Theorem C30_attach_line_added : forall grow q ver d pc, answers q d -> legal d -> rectangular (contents d) ->
  column_at (str "country") (dFields (contents d)) pc -> ~ In (str "line") (dFields (contents d)) ->
  (no_sharing d \/ Forall (full d) (hRows d)) ->
  exists d', AttachLineByCidr grow q ver d = Ok d' /\ legal d' /\
    dFields (contents d') = dFields (contents d) ++ [str "line"] /\
    dVersion (contents d') = with_source (dVersion (contents d)) ver /\
    Forall2 (fun r r' => cidr r' = cidr r /\ exists x, line_for q pc r x /\ fvals r' = fvals r ++ [x])
            (dIps (contents d)) (dIps (contents d')).
Proof.
  intros grow q ver d pc A Lg Rc [C1 C2] ND Sh. cbn [contents dFields] in C1, C2, ND. unfold AttachLineByCidr.
  rewrite (offset_absent fLine _ ND).
  rewrite (offset_app fLine fCountry (hFields d) (offset_absent _ _ ND)), (offset_first fCountry _ _ C1 C2).
  assert (pc < length (hFields d)) as Lp by (apply nth_error_Some; congruence).
  destruct (each_row_app grow (fun _ n v => let* l := row_line q pc n v in Ok (App l))
              (fun n v => App (line_of q pc n v)) (hHeap d) (hRows d) Lg) as (h' & rows' & E & Lg' & M).
  - intros k n s Hin. destruct (rect_len d _ Lg Rc Hin) as (A1 & B & C). cbn [snd] in *. rewrite row_line_ok by (first [assumption|lia|exact (answers_row _ _ _ A Hin)]). reflexivity.
  - intros. exact I.
  - intros n s n' s' H H' Ea. destruct Sh as [NS|Fl].
    + right. assert ((n, s) = (n', s')) as Eq.
      { unfold no_sharing in NS. clear - NS H H' Ea. induction (hRows d) as [|r l IH]; [destruct H|]. cbn [map] in NS. inversion NS; subst.
        destruct H as [->|H]; destruct H' as [->|H']; auto.
        - exfalso. apply H2. apply in_map_iff. exists (n', s'). cbn [snd]. auto.
        - exfalso. apply H2. apply in_map_iff. exists (n, s). cbn [snd]. auto. }
      injection Eq as <- <-. auto.
    + left. rewrite Forall_forall in Fl. pose proof (Fl _ H) as F1. pose proof (Fl _ H') as F2. unfold full in *. cbn [snd] in *.
      split; [assumption|]. rewrite Ea. assumption.
  - rewrite E. cbn [bind]. eexists. split; [reflexivity|]. split; [exact Lg'|]. split; [reflexivity|]. split; [reflexivity|].
    match goal with |- Forall2 ?P ?l _ => change (Forall2 P l (map (fun r : hrow => mkRaw (fst r) (view h' (snd r))) rows')) end. rewrite M. apply rows_forall2. apply map_forall2. intros r Hr. cbn [cidr fvals applied]. split; [reflexivity|].
    eexists. split; [apply line_of_spec; exact (answers_row _ _ _ A Hr)|reflexivity].
Qed.
Print Assumptions C30_attach_line_added.

(** With a line column every row receives the line of the last row it shares its
    values with: its own one if it shares them with nobody. *)
Theorem C30_attach_line_set : forall grow q ver d pc pl, answers q d -> legal d -> rectangular (contents d) ->
  column_at (str "country") (dFields (contents d)) pc -> column_at (str "line") (dFields (contents d)) pl ->
  exists d', AttachLineByCidr grow q ver d = Ok d' /\ legal d' /\
    dFields (contents d') = dFields (contents d) /\ dVersion (contents d') = with_source (dVersion (contents d)) ver /\
    length (dIps (contents d')) = length (dIps (contents d)) /\
    forall i r h, nth_error (dIps (contents d)) i = Some r -> nth_error (hRows d) i = Some h ->
      exists r' j hj rj x, nth_error (dIps (contents d')) i = Some r' /\ cidr r' = cidr r /\
        (* j is the last row whose slice is that of row i *)
        nth_error (hRows d) j = Some hj /\ sArr (snd hj) = sArr (snd h) /\ nth_error (dIps (contents d)) j = Some rj /\
        (forall k hk, j < k -> nth_error (hRows d) k = Some hk -> sArr (snd hk) <> sArr (snd h)) /\
        line_for q pc rj x /\ fvals r' = with_col (fvals r) pl x.
Proof.
  intros grow q ver d pc pl A Lg Rc [C1 C2] [C3 C4]. cbn [contents dFields] in C1, C2, C3, C4. unfold AttachLineByCidr.
  rewrite (offset_first fLine _ _ C3 C4), (offset_first fCountry _ _ C1 C2).
  assert (pc < length (hFields d)) as Lp by (apply nth_error_Some; congruence).
  assert (pl < length (hFields d)) as Ll by (apply nth_error_Some; congruence).
  assert (pl <> pc) as NE by (intros ->; rewrite C1 in C3; discriminate C3).
  set (L := fun r : hrow => Some (line_of q pc (fst r) (view (hHeap d) (snd r)))).
  destruct (each_row_column grow (fun _ n v => let* l := row_line q pc n v in Ok (Put pl l)) (hHeap d) (hRows d) pl L Lg)
    as (h' & E & Lg' & V).
  - intros r Hr. destruct (rect_len d r Lg Rc Hr) as (A1 & B & C). lia.
  - intros k n s v Hin Hv. destruct (rect_len d _ Lg Rc Hin) as (A1 & B & C). cbn [snd] in *.
    assert (length v = length (hFields d) /\ nth pc v [] = nth pc (view (hHeap d) s) []) as [Lv Nv].
    { destruct Hv as [->|[l ->]]; [auto|]. rewrite upd_length, nth_upd_ne by assumption. auto. }
    rewrite row_line_ok by (first [assumption|lia|exact (answers_row _ _ _ A Hin)]). cbn [bind]. unfold L, line_of. cbn [fst snd]. rewrite Nv. reflexivity.
  - rewrite E. cbn [bind]. eexists. split; [reflexivity|]. split; [exact Lg'|]. split; [reflexivity|]. split; [reflexivity|].
    cbn [contents hFields hVersion hRows hHeap dFields dVersion dIps]. rewrite !map_length. split; [reflexivity|].
    intros i r h Hi Hh. rewrite nth_error_map, Hh in Hi. cbn in Hi. assert (r = mkRaw (fst h) (view (hHeap d) (snd h))) as -> by congruence. clear Hi.
    pose proof (last_write_spec L (hRows d) (sArr (snd h))) as LW.
    destruct (last_write L (hRows d) (sArr (snd h))) as [l|] eqn:El.
    2:{ specialize (LW h (nth_error_In _ _ Hh) eq_refl). discriminate LW. }
    destruct LW as (j & hj & H1 & H2 & H3 & H4). unfold L in H3.
    assert (l = line_of q pc (fst hj) (view (hHeap d) (snd hj))) as -> by congruence.
    eexists. exists j, hj. eexists. eexists.
    split; [rewrite nth_error_map, Hh; reflexivity|]. cbn [cidr fvals]. split; [reflexivity|].
    split; [assumption|]. split; [assumption|]. split; [rewrite nth_error_map, H1; reflexivity|].
    split. { intros k hk Hk Hn Ha. specialize (H4 k hk Hk Hn Ha). discriminate H4. }
    split; [apply line_of_spec; exact (answers_row _ _ hj A (nth_error_In _ _ H1))|].
    destruct (rect_len d h Lg Rc (nth_error_In _ _ Hh)) as (A1 & B & C).
    rewrite (V (snd h)) by (apply in_map, (nth_error_In _ _ Hh)). unfold written. rewrite El. apply upd_with_col. lia.
Qed.
Print Assumptions C30_attach_line_set.

(** ReplaceLineByCidr: the isp becomes the line of the last sharing row that has
    one; a row that shares its values with nobody gets its own line. *)
Theorem C30_replace_line : forall q ver d pc pi, answers q d -> legal d -> rectangular (contents d) ->
  column_at (str "country") (dFields (contents d)) pc -> column_at (str "isp") (dFields (contents d)) pi ->
  exists d', ReplaceLineByCidr q ver d = Ok d' /\ legal d' /\ hRows d' = hRows d /\
    dFields (contents d') = dFields (contents d) /\ dVersion (contents d') = with_source (dVersion (contents d)) ver /\
    length (dIps (contents d')) = length (dIps (contents d)) /\
    forall i r h, nth_error (dIps (contents d)) i = Some r -> nth_error (hRows d) i = Some h ->
      exists r', nth_error (dIps (contents d')) i = Some r' /\ cidr r' = cidr r /\
        ((fvals r' = fvals r /\
          forall k hk rk, nth_error (hRows d) k = Some hk -> nth_error (dIps (contents d)) k = Some rk ->
            sArr (snd hk) = sArr (snd h) -> line_for q pc rk []) \/
         exists j hj rj x, nth_error (hRows d) j = Some hj /\ sArr (snd hj) = sArr (snd h) /\
           nth_error (dIps (contents d)) j = Some rj /\ line_for q pc rj x /\ x <> [] /\ fvals r' = with_col (fvals r) pi x /\
           forall k hk rk, j < k -> nth_error (hRows d) k = Some hk -> nth_error (dIps (contents d)) k = Some rk ->
             sArr (snd hk) = sArr (snd h) -> line_for q pc rk []).
Proof.
  intros q ver d pc pi A Lg Rc [C1 C2] [C3 C4]. cbn [contents dFields] in C1, C2, C3, C4. unfold ReplaceLineByCidr.
  rewrite (offset_first fISP _ _ C3 C4), (offset_first fCountry _ _ C1 C2).
  assert (pc < length (hFields d)) as Lp by (apply nth_error_Some; congruence).
  assert (pi < length (hFields d)) as Ll by (apply nth_error_Some; congruence).
  assert (pi <> pc) as NE by (intros ->; rewrite C1 in C3; discriminate C3).
  set (L := fun r : hrow => let l := line_of q pc (fst r) (view (hHeap d) (snd r)) in if is_nil l then None else Some l).
  destruct (each_row_column (fun _ => 0) (fun _ n v => let* l := row_line q pc n v in Ok (if is_nil l then Keep else Put pi l)) (hHeap d) (hRows d) pi L Lg)
    as (h' & E & Lg' & V).
  - intros r Hr. destruct (rect_len d r Lg Rc Hr) as (A1 & B & C). lia.
  - intros k n s v Hin Hv. destruct (rect_len d _ Lg Rc Hin) as (A1 & B & C). cbn [snd] in *.
    assert (length v = length (hFields d) /\ nth pc v [] = nth pc (view (hHeap d) s) []) as [Lv Nv].
    { destruct Hv as [->|[l ->]]; [auto|]. rewrite upd_length, nth_upd_ne by assumption. auto. }
    rewrite row_line_ok by (first [assumption|lia|exact (answers_row _ _ _ A Hin)]). cbn [bind]. unfold L. cbn [fst snd].
    assert (line_of q pc n v = line_of q pc n (view (hHeap d) s)) as -> by (unfold line_of; rewrite Nv; reflexivity).
    destruct (is_nil _); reflexivity.
  - rewrite E. cbn [bind]. eexists. split; [reflexivity|]. split; [exact Lg'|]. split; [reflexivity|]. split; [reflexivity|]. split; [reflexivity|].
    cbn [contents hFields hVersion hRows hHeap dFields dVersion dIps]. rewrite !map_length. split; [reflexivity|].
    intros i r h Hi Hh. rewrite nth_error_map, Hh in Hi. cbn in Hi. assert (r = mkRaw (fst h) (view (hHeap d) (snd h))) as -> by congruence. clear Hi.
    assert (forall k hk rk, nth_error (hRows d) k = Some hk ->
              nth_error (map (fun r : hrow => mkRaw (fst r) (view (hHeap d) (snd r))) (hRows d)) k = Some rk -> L hk = None -> line_for q pc rk []) as LN.
    { intros k hk rk Hk Hr Hn. rewrite nth_error_map, Hk in Hr. cbn in Hr.
      assert (rk = mkRaw (fst hk) (view (hHeap d) (snd hk))) as -> by congruence.
      pose proof (line_of_spec q pc (fst hk) (view (hHeap d) (snd hk)) (answers_row _ _ hk A (nth_error_In _ _ Hk))) as S. unfold L in Hn.
      destruct (line_of q pc (fst hk) (view (hHeap d) (snd hk))); [assumption|discriminate Hn]. }
    pose proof (last_write_spec L (hRows d) (sArr (snd h))) as LW.
    eexists. split; [rewrite nth_error_map, Hh; reflexivity|]. cbn [cidr fvals]. split; [reflexivity|].
    rewrite (V (snd h)) by (apply in_map, (nth_error_In _ _ Hh)). unfold written.
    destruct (last_write L (hRows d) (sArr (snd h))) as [l|] eqn:El.
    + right. destruct LW as (j & hj & H1 & H2 & H3 & H4).
      exists j, hj. eexists. exists l. split; [assumption|]. split; [assumption|].
      split; [rewrite nth_error_map, H1; reflexivity|]. cbn [option_map].
      assert (l = line_of q pc (fst hj) (view (hHeap d) (snd hj)) /\ l <> []) as [-> Nl].
      { unfold L in H3. destruct (line_of q pc (fst hj) (view (hHeap d) (snd hj))); cbn in H3; [discriminate H3|].
        split; [congruence|]. intros ->. discriminate H3. }
      split; [apply line_of_spec; exact (answers_row _ _ hj A (nth_error_In _ _ H1))|]. split; [assumption|].
      destruct (rect_len d h Lg Rc (nth_error_In _ _ Hh)) as (A1 & B & C).
      split; [apply upd_with_col; lia|]. intros k hk rk Hk Hn Hr Ha. eapply LN; eauto.
    + left. split; [reflexivity|]. intros k hk rk Hn Hr Ha. eapply LN; eauto. apply LW; [apply (nth_error_In _ _ Hn)|assumption].
Qed.
Print Assumptions C30_replace_line.

(** With rows that share nothing every row gets its own line. *)
Lemma no_sharing_inj d i j hi hj : no_sharing d -> nth_error (hRows d) i = Some hi -> nth_error (hRows d) j = Some hj ->
  sArr (snd hi) = sArr (snd hj) -> i = j.
Proof.
  intros N Hi Hj E. unfold no_sharing in N. rewrite NoDup_nth_error in N. apply N.
  - rewrite map_length. apply nth_error_Some. congruence.
  - rewrite !nth_error_map, Hi, Hj. cbn. congruence.
Qed.
Theorem C30_own_line : forall grow q ver d pc pl, answers q d -> legal d -> rectangular (contents d) -> no_sharing d ->
  column_at (str "country") (dFields (contents d)) pc -> column_at (str "line") (dFields (contents d)) pl ->
  exists d', AttachLineByCidr grow q ver d = Ok d' /\ dFields (contents d') = dFields (contents d) /\
    Forall2 (fun r r' => cidr r' = cidr r /\ exists x, line_for q pc r x /\ fvals r' = with_col (fvals r) pl x)
            (dIps (contents d)) (dIps (contents d')).
Proof.
  intros grow q ver d pc pl A Lg Rc NS C1 C2.
  destruct (C30_attach_line_set grow q ver d pc pl A Lg Rc C1 C2) as (d' & E & Lg' & F & _ & Len & H).
  exists d'. split; [assumption|]. split; [assumption|].
  assert (forall (P : IpRaw -> IpRaw -> Prop) l l', length l' = length l ->
     (forall i r, nth_error l i = Some r -> exists r', nth_error l' i = Some r' /\ P r r') -> Forall2 P l l') as G.
  { clear. intros P. induction l as [|r l IH]; intros [|r' l'] EL H; try discriminate; [constructor|].
    destruct (H 0 r eq_refl) as (r2 & E2 & Hp). injection E2 as <-. constructor; [assumption|]. apply IH; [cbn in EL; lia|].
    intros i x Hx. apply (H (S i) x Hx). }
  apply G; [assumption|]. intros i r Hi.
  destruct (nth_error (hRows d) i) as [h|] eqn:Eh.
  2:{ cbn [contents dIps] in Hi. rewrite nth_error_map, Eh in Hi. discriminate Hi. }
  destruct (H i r h Hi Eh) as (r' & j & hj & rj & x & H1 & H2 & H3 & H4 & H5 & H6 & H7 & H8).
  assert (i = j) as <- by (eapply no_sharing_inj; [eassumption|eassumption|eassumption|congruence]).
  assert (rj = r) as -> by congruence. exists r'. split; [assumption|]. split; [assumption|]. exists x. auto.
Qed.
Print Assumptions C30_own_line.

(** C30, finding: rows that came out of one merged range share their values, so
    all but the last of them get a foreign line.  Four rows, the middle two are
    1.0.0.128/25 and 1.0.1.0/24, which merge into one range of the same values. *)
Definition line_db (ip : bytes) : res IpInfo :=
  Ok (mkInfo [] [] [] [] [] [] [] (if bytes_eqb (to4 ip) [x01; x00; x00; x80] then str "联通" else str "移动/x")).
Definition cn_example : HData :=
  mkH [str "country"; str "isp"] (mkVersion 1 2 0 [] [] [])
      [(mkNet [x01; x00; x00; x80] [xff; xff; xff; x80], mkSlc 0 2);
       (mkNet [x01; x00; x01; x00] [xff; xff; xff; x00], mkSlc 1 2)]
      [[str "中国"; str "a"]; [str "中国"; str "a"]].
Theorem C30_merged_rows_refuted :
  exists d d1 d2 r, answers line_db d /\ legal d /\ rectangular (contents d) /\ no_sharing d /\
    MergeNearNetwork d = Ok d1 /\ ReplaceLineByCidr line_db [] d1 = Ok d2 /\
    In r (dIps (contents d2)) /\ nIP (cidr r) = IPv4 x01 x00 x00 x80 /\
    (* the line of this network is 联通, the row says 移动 *)
    line_for line_db 0 r (str "联通") /\ nth 1 (fvals r) [] = str "移动".
Proof.
  exists cn_example. do 2 eexists. eexists. split; [intros ? _; left; eexists; reflexivity|].
  split; [repeat constructor|]. split; [repeat constructor|]. split; [repeat constructor; cbn; intuition discriminate|].
  split; [vm_compute; reflexivity|]. split; [vm_compute; reflexivity|].
  split; [left; reflexivity|]. split; [reflexivity|]. split; [|reflexivity].
  unfold line_for. cbn [fvals nth]. change (bytes_eqb _ (str "中国")) with true. cbv iota. cbn [cidr nIP].
  exists (str "联通"). split; [split; [|left; reflexivity]|right; left; split; [right; left|]; reflexivity].
  intros H. apply in_map with (f := b2n) in H. vm_compute in H. intuition discriminate.
Qed.
Print Assumptions C30_merged_rows_refuted.
Example C30_case : answers line_db cn_example /\ legal cn_example /\ rectangular (contents cn_example) /\ no_sharing cn_example /\
  column_at (str "country") (hFields cn_example) 0 /\ column_at (str "isp") (hFields cn_example) 1.
Proof.
  split; [intros ? _; left; eexists; reflexivity|].
  split; [repeat constructor|]. split; [repeat constructor|]. split; [repeat constructor; cbn; intuition discriminate|].
  split; split; try reflexivity; intros [|j] Hj; try lia; discriminate.
Qed.

(* ------------------------------------------------------------------ *)
(** C48: without a line column the first column is looked up instead of the asn
    column, and rows without a match stay one value short. *)
Theorem C48_first_column_used : forall grow asnLine ver d, legal d -> rectangular (contents d) ->
  In (str "asn") (dFields (contents d)) -> ~ In (str "line") (dFields (contents d)) ->
  exists d', AttachLineByAsn grow asnLine ver d = Ok d' /\
    dFields (contents d') = dFields (contents d) ++ [str "line"] /\
    Forall2 (fun r r' => cidr r' = cidr r /\
               fvals r' = match assoc (nth 0 (fvals r) []) asnLine with Some l => fvals r ++ [l] | None => fvals r end)
            (dIps (contents d)) (dIps (contents d')).
Proof.
  intros grow asnLine ver d Lg Rc HA HL. cbn [contents dFields] in HA, HL. unfold AttachLineByAsn.
  assert (in_array fAsn (hFields d) = true) as -> by (apply in_array_iff; assumption).
  assert (in_array fLine (hFields d) = false) as ->.
  { destruct (in_array fLine (hFields d)) eqn:E; [|reflexivity]. apply in_array_iff in E. contradiction. }
  cbn [negb].
  assert (0 < length (hFields d)) as Lp by (destruct (hFields d); [destruct HA|cbn; lia]).
  set (g := fun (_ : IPNet) (v : list bytes) => match assoc (nth 0 v []) asnLine with Some l => App l | None => Keep end).
  destruct (each_row_app grow (fun (_ : nat) (_ : IPNet) v => let* asn := idx v 0 in match assoc asn asnLine with Some line => Ok (App line) | None => Ok Keep end)
              g (hHeap d) (hRows d) Lg) as (h' & rows' & E & Lg' & M).
  - intros k n s Hin. destruct (rect_len d _ Lg Rc Hin) as (A1 & B & C). cbn [snd] in *. rewrite idx_b by lia. cbn [bind].
    unfold g. destruct (assoc _ asnLine); reflexivity.
  - intros n s Hin. unfold g. destruct (assoc _ asnLine); exact I.
  - intros n s n' s' H H' Ea. right. destruct (rect_len d _ Lg Rc H) as (A & B & C). destruct (rect_len d _ Lg Rc H') as (A' & B' & C').
    cbn [snd] in *. split; [congruence|]. unfold g, view. rewrite Ea, B, B'. reflexivity.
  - rewrite E. cbn [bind]. eexists. split; [reflexivity|]. split; [reflexivity|].
    match goal with |- Forall2 ?P ?l _ => change (Forall2 P l (map (fun r : hrow => mkRaw (fst r) (view h' (snd r))) rows')) end.
    rewrite M. apply rows_forall2. apply map_forall2. intros r Hr. cbn [cidr fvals]. split; [reflexivity|]. unfold g.
    destruct (assoc _ asnLine); reflexivity.
Qed.
Print Assumptions C48_first_column_used.

(** C48: with a line column only empty lines are ever written. *)
Theorem C48_only_empty_written : forall grow asnLine ver d pa pl, legal d -> rectangular (contents d) ->
  only_column (str "asn") (dFields (contents d)) pa -> only_column (str "line") (dFields (contents d)) pl ->
  exists d', AttachLineByAsn grow asnLine ver d = Ok d' /\ dFields (contents d') = dFields (contents d) /\
    Forall2 (fun r r' => cidr r' = cidr r /\
               fvals r' = match assoc (nth pa (fvals r) []) asnLine with
                          | Some [] => with_col (fvals r) pl []
                          | _ => fvals r
                          end)
            (dIps (contents d)) (dIps (contents d')).
Proof.
  intros grow asnLine ver d pa pl Lg Rc [A1 A2] [L1 L2]. cbn [contents dFields] in A1, A2, L1, L2. unfold AttachLineByAsn.
  assert (in_array fAsn (hFields d) = true) as -> by (apply in_array_iff; apply (nth_error_In _ _ A1)).
  assert (in_array fLine (hFields d) = true) as -> by (apply in_array_iff; apply (nth_error_In _ _ L1)).
  cbn [negb]. rewrite (last_index_only fAsn _ pa 0 0 A1 A2), (last_index_only fLine _ pl 0 0 L1 L2). cbn [Nat.add].
  assert (pa < length (hFields d)) as Lp by (apply nth_error_Some; congruence).
  assert (pl < length (hFields d)) as Ll by (apply nth_error_Some; congruence).
  assert (pl <> pa) as NE by (intros ->; rewrite A1 in L1; discriminate L1).
  set (L := fun r : hrow => match assoc (nth pa (view (hHeap d) (snd r)) []) asnLine with Some [] => Some ([] : bytes) | _ => None end).
  destruct (each_row_column grow (fun (_ : nat) (_ : IPNet) v => let* asn := idx v pa in
              match assoc asn asnLine with Some line => Ok (if is_nil line then Put pl line else Keep) | None => Ok Keep end)
              (hHeap d) (hRows d) pl L Lg) as (h' & E & Lg' & V).
  - intros r Hr. destruct (rect_len d r Lg Rc Hr) as (X & B & C). lia.
  - intros k n s v Hin Hv. destruct (rect_len d _ Lg Rc Hin) as (X & B & C). cbn [snd] in *.
    assert (length v = length (hFields d) /\ nth pa v [] = nth pa (view (hHeap d) s) []) as [Lv Nv].
    { destruct Hv as [->|[l ->]]; [auto|]. rewrite upd_length, nth_upd_ne by assumption. auto. }
    rewrite idx_b by lia. cbn [bind]. unfold L. cbn [snd]. rewrite Nv.
    destruct (assoc _ asnLine) as [[|c l]|]; reflexivity.
  - rewrite E. cbn [bind]. eexists. split; [reflexivity|]. split; [reflexivity|].
    match goal with |- Forall2 ?P ?l _ => change (Forall2 P l (map (fun r : hrow => mkRaw (fst r) (view h' (snd r))) (hRows d))) end.
    apply rows_forall2. apply map_forall2. intros r Hr. cbn [cidr fvals]. split; [reflexivity|].
    rewrite (V (snd r)) by (apply in_map; assumption). unfold written.
    destruct (rect_len d r Lg Rc Hr) as (X & B & C).
    assert (forall r0, In r0 (hRows d) -> sArr (snd r0) = sArr (snd r) -> L r0 = L r) as Same.
    { intros r0 Hr0 Ea. destruct (rect_len d r0 Lg Rc Hr0) as (X0 & B0 & C0). unfold L, view. rewrite Ea, B, B0. reflexivity. }
    pose proof (last_write_spec L (hRows d) (sArr (snd r))) as LW.
    destruct (last_write L (hRows d) (sArr (snd r))) as [l|].
    + destruct LW as (j & hj & H1 & H2 & H3 & _). rewrite (Same _ (nth_error_In _ _ H1) H2) in H3. unfold L in H3.
      destruct (assoc _ asnLine) as [[|c l']|]; try discriminate H3.
      assert (l = []) as -> by congruence. apply upd_with_col. lia.
    + specialize (LW r Hr eq_refl). unfold L in LW. destruct (assoc _ asnLine) as [[|c l']|]; try reflexivity. discriminate LW.
Qed.
Print Assumptions C48_only_empty_written.
Example C48_case :
  let d := mkH [str "country"; str "asn"] (mkVersion 1 1 0 [] [] []) [(mkNet [x01;x00;x00;x00] [xff;xff;xff;x00], mkSlc 0 2)]
               [[str "中国"; str "4134"]] in
  legal d /\ rectangular (contents d) /\
  match AttachLineByAsn (fun n => n) [(str "4134", str "电信")] [] d with
  | Ok d' => map fvals (dIps (contents d')) = [[str "中国"; str "4134"]] /\ dFields (contents d') = [str "country"; str "asn"; str "line"]
  | _ => False
  end.
Proof. split; [repeat constructor|]. split; [repeat constructor|]. vm_compute. split; reflexivity. Qed.

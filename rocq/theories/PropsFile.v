(** Property theorems C64: what a query of ANY ipdb file gives, also of files that were not
    written by this library or that are damaged. *)
From Verif Require Import Base NetIP IpNet Spec IpNetProofs SplitProofs IpNetProofs2 Inf Ipdb SpecIpdb SpecExport Export Bits.
From Verif Require Import TrieProofs WriterProofs ReaderProofs OpenProofs PackProofs PropsIpdb.
From Verif Require Import Tables Operate NetText NetTextProofs Facade PropsFacade2 PropsFacade3 ConvertProofs PropsConvert.
Open Scope nat_scope.

(* ---------- specification: the file format ---------- *)
(** A file: the length of the description, the description, the body. *)
Definition file_is (data md body : bytes) : Prop :=
  exists h, data = h ++ md ++ body /\ length h = 4 /\ val h = N.of_nat (length md).
(** The number stored in the w bytes at offset o. *)
Definition number_at (body : bytes) (o w : nat) (x : N) : Prop :=
  exists a s b, body = a ++ s ++ b /\ length a = o /\ length s = w /\ val s = x.
(** From node n the bits lead to x after k steps: nodes below nc have two links of four bytes. *)
Inductive leads (body : bytes) (nc : N) : list bool -> N -> nat -> N -> Prop :=
| leads_leaf : forall bs n, (nc <= n)%N -> leads body nc bs n 0 n
| leads_end : forall n, leads body nc [] n 0 n
| leads_step : forall (b : bool) bs n m k x, (n < nc)%N -> number_at body (8 * N.to_nat n + (if b then 4 else 0)) 4 m ->
    leads body nc bs m k x -> leads body nc (b :: bs) n (S k) x.
(** A link x above nc stands for the record at offset x + 7 nc: two bytes with the length, then
    the text.  [size] is the size of the whole file.  None: the query crashes. *)
Inductive found (body : bytes) (size nc : N) (k : nat) (x : N) : option (bytes * nat) -> Prop :=
| found_text : forall rec, (nc < x)%N ->
    (exists a s b, body = a ++ s ++ rec ++ b /\ length a = N.to_nat (x + 7 * nc) /\ length s = 2 /\ val s = N.of_nat (length rec)) ->
    found body size nc k x (Some (rec, k))
| found_nothing : (x <= nc)%N -> found body size nc k x (Some ([], 0))
| found_outside : (nc < x)%N -> (size <= x + 7 * nc)%N -> found body size nc k x (Some ([], 0))
| found_cut : (nc < x)%N -> (exists l, number_at body (N.to_nat (x + 7 * nc)) 2 l /\ (N.of_nat (length body) < x + 7 * nc + 2 + l)%N) ->
    found body size nc k x (Some ([], 0))
| found_crash : (nc < x)%N -> (N.of_nat (length body) < x + 7 * nc + 2)%N -> (x + 7 * nc < size)%N ->
    found body size nc k x None.
(** The columns of a text. *)
Definition columns (text : bytes) (cols : list bytes) : Prop :=
  cols <> [] /\ Forall (no_byte x09) cols /\ join x09 cols = text.
(** Continent codes in the first continent column are shown as names. *)
Fixpoint show_code (fields values : list bytes) : list bytes :=
  match fields, values with
  | f :: fs, v :: vs => if bytes_eqb f (str "continent_code") then continent_name v :: vs else v :: show_code fs vs
  | _, _ => values
  end.
Definition file_info (fields values : list bytes) : IpInfo :=
  let v := show_code fields values in
  mkInfo (column [str "country_name"] fields v) (column [str "district"] fields v) (column [str "region_name"] fields v)
         (column [str "city_name"] fields v) (column [str "asn"] fields v) (column [str "isp_domain"] fields v)
         (column [str "continent_code"] fields v) (column [str "line"] fields v).
(** The answer for a text: the columns of the language, which start at offset off. *)
Definition shown_as (fields : list bytes) (off : nat) (cols : list bytes) (m : nat) : goresult :=
  if (length cols <? off + length fields)%nat then Ok (None, 0, Some ErrDatabaseError)
  else Ok (Some (file_info fields (firstn (length fields) (skipn off cols))), m, None).
Definition family_mask (a : N) (k : nat) : nat := if v4b a then k - 96 else k.
Definition has_family (meta : MetaData) (a : N) : bool := if v4b a then HasIPv4 meta else HasIPv6 meta.

(* ---------- reading numbers ---------- *)
Lemma number_slice body o w x : number_at body o w x <-> exists s, slice body o (o + w) = Ok s /\ val s = x.
Proof.
  split.
  - intros (a & s & b & -> & La & Ls & V). exists s. split; [apply slice_app; lia|assumption].
  - intros (s & Hs & V). apply slice_Ok in Hs as [L ->]. exists (firstn o body), (firstn (o + w - o) (skipn o body)), (skipn (o + w - o) (skipn o body)).
    split; [rewrite !firstn_skipn; reflexivity|]. rewrite !firstn_length, skipn_length. split; [lia|]. split; [lia|assumption].
Qed.
Lemma number_unique body o w x y : number_at body o w x -> number_at body o w y -> x = y.
Proof. intros A B. apply number_slice in A as (s & A & <-), B as (s' & B & <-). congruence. Qed.
Lemma readNode_number body n b m : readNode body (Z.of_N n) b = Ok m -> number_at body (8 * N.to_nat n + (if b then 4 else 0)) 4 (Z.to_N m) /\ (0 <= m)%Z.
Proof.
  unfold readNode, zslice. destruct (Z.ltb_spec (Z.of_N n * 8 + (if b then 4 else 0)) 0); [cbn [bind]; discriminate|].
  destruct (Z.ltb_spec (Z.of_N n * 8 + (if b then 4 else 0) + 4) 0); [cbn [bind]; discriminate|].
  replace (Z.to_nat (Z.of_N n * 8 + (if b then 4 else 0))) with (8 * N.to_nat n + (if b then 4 else 0))%nat by (destruct b; lia).
  replace (Z.to_nat (Z.of_N n * 8 + (if b then 4 else 0) + 4)) with (8 * N.to_nat n + (if b then 4 else 0) + 4)%nat by (destruct b; lia).
  destruct (slice _ _ _) as [s| | |] eqn:E; cbn [bind]; try discriminate. intros Q. assert (Z.of_N (val s) = m) as <- by congruence.
  split; [|lia]. apply number_slice. exists s. split; [assumption|]. lia.
Qed.
Lemma readNode_total body n b : (8 * n + 8 <= N.of_nat (length body))%N -> exists m, readNode body (Z.of_N n) b = Ok m.
Proof.
  intros L. unfold readNode, zslice.
  replace (Z.of_N n * 8 + (if b then 4 else 0) <? 0)%Z with false by (destruct b; lia).
  replace (Z.of_N n * 8 + (if b then 4 else 0) + 4 <? 0)%Z with false by (destruct b; lia).
  unfold slice. match goal with |- context [(?x <=? ?y) && (?z <=? ?w)] => replace ((x <=? y) && (z <=? w)) with true by (destruct b; lia) end.
  cbn [bind]. eauto.
Qed.
Lemma rwalk_leads body nc bs : forall n x k, rwalk body (Z.of_N nc) bs (Z.of_N n) = Ok (x, k) -> leads body nc bs n k (Z.to_N x) /\ (0 <= x)%Z.
Proof.
  induction bs as [|b bs IH]; intros n x k; cbn [rwalk].
  - intros H. assert (x = Z.of_N n /\ k = 0) as [-> ->] by (split; congruence). rewrite N2Z.id. split; [apply leads_end|lia].
  - destruct (Z.leb_spec (Z.of_N nc) (Z.of_N n)) as [L|L].
    + intros H. assert (x = Z.of_N n /\ k = 0) as [-> ->] by (split; congruence). rewrite N2Z.id. split; [apply leads_leaf; lia|lia].
    + destruct (readNode _ _ _) as [m| | |] eqn:R; cbn [bind]; try discriminate. apply readNode_number in R as [R Rm].
      rewrite <- (Z2N.id m) by assumption. destruct (rwalk _ _ _ _) as [[x' k']| | |] eqn:W; cbn [bind]; try discriminate.
      intros H. assert (x' = x /\ k = S k') as [-> ->] by (split; congruence). apply IH in W as [W Wx]. split; [|assumption]. econstructor; eauto. lia.
Qed.
Lemma rwalk_total body nc bs : (8 * nc <= N.of_nat (length body))%N -> forall n, exists x k, rwalk body (Z.of_N nc) bs (Z.of_N n) = Ok (x, k).
Proof.
  intros L. induction bs as [|b bs IH]; intros n; cbn [rwalk]; [eauto|].
  destruct (Z.leb_spec (Z.of_N nc) (Z.of_N n)); [eauto|].
  destruct (readNode_total body n b) as [m R]; [lia|]. pose proof (proj2 (readNode_number _ _ _ _ R)) as Rm. rewrite R. cbn [bind].
  rewrite <- (Z2N.id m) by assumption. destruct (IH (Z.to_N m)) as (x & k & ->). cbn [bind]. eauto.
Qed.
(** The bits of an address lead to exactly one link. *)
Lemma leads_unique body nc bs n k x : leads body nc bs n k x -> forall k' x', leads body nc bs n k' x' -> k = k' /\ x = x'.
Proof.
  induction 1 as [bs n L|n|b bs n m k x L Hm _ IH]; intros k' x' H.
  - inversion H; subst; auto. lia.
  - inversion H; subst; auto.
  - inversion H; subst; [lia|]. match goal with X : number_at _ _ _ _ |- _ => pose proof (number_unique _ _ _ _ _ Hm X); subst end.
    destruct (IH _ _ ltac:(eassumption)) as [-> ->]. auto.
Qed.
Lemma found_unique body size nc k x o o' : (N.of_nat (length body) <= size)%N -> found body size nc k x o -> found body size nc k x o' -> o = o'.
Proof.
  assert (Rec : forall r, (exists a s b, body = a ++ s ++ r ++ b /\ length a = N.to_nat (x + 7 * nc) /\ length s = 2 /\ val s = N.of_nat (length r)) ->
     number_at body (N.to_nat (x + 7 * nc)) 2 (N.of_nat (length r)) /\ (x + 7 * nc + 2 + N.of_nat (length r) <= N.of_nat (length body))%N /\
     r = firstn (length r) (skipn (N.to_nat (x + 7 * nc) + 2) body)).
  { intros r (a & s & b & -> & La & Ls & V). split; [exists a, s, (r ++ b); auto|]. rewrite !app_length. split; [lia|].
    rewrite app_assoc, skipn_app, (skipn_all2 (a ++ s)) by (rewrite app_length; lia). rewrite app_length. replace (_ - (length a + length s)) with 0 by lia.
    cbn [skipn app]. rewrite firstn_app, firstn_all. rewrite Nat.sub_diag, firstn_O, app_nil_r. reflexivity. }
  assert (Num : forall l, number_at body (N.to_nat (x + 7 * nc)) 2 l -> (x + 7 * nc + 2 <= N.of_nat (length body))%N).
  { intros l (a & s & b & -> & La & Ls & _). rewrite !app_length. lia. }
  intros Hsz H H'. destruct H as [r N1 R|N1|N1 S1|N1 (l & L1 & L2)|N1 S1 S2]; destruct H' as [r' N1' R'|N1'|N1' S1'|N1' (l' & L1' & L2')|N1' S1' S2'];
    try reflexivity; try lia;
    repeat match goal with
    | X : exists a s b, _ = a ++ s ++ _ ++ b /\ _ |- _ => apply Rec in X as (? & ? & ?)
    | X : number_at _ _ _ _ |- _ => let Y := fresh in pose proof (Num _ X) as Y; revert X
    end; intros; try lia.
  all: repeat match goal with X : number_at _ _ _ ?u, Y : number_at _ _ _ ?v |- _ => pose proof (number_unique _ _ _ _ _ X Y); clear Y end; try lia.
  do 2 f_equal. assert (length r = length r') as El by lia. congruence.
Qed.

(* ---------- what an opened reader holds ---------- *)
Lemma opened u data r md body meta : newReaderFromBytes u data = Ok r -> file_is data md body -> u md = Some meta ->
  rMeta r = meta /\ rData r = body /\ rFileSize r = Z.of_nat (length data) /\ rNodeCount r = mNodeCount meta /\
  rCont r = offset_of FieldContinentCode (mFields meta) /\ mFields meta <> [].
Proof.
  intros O (h & -> & Lh & Vh) U. unfold newReaderFromBytes in O.
  assert (slice (h ++ md ++ body) 0 4 = Ok h) as E1 by (apply (slice_app [] h (md ++ body)); [reflexivity|rewrite Lh; reflexivity]).
  rewrite E1 in O. cbn [bind] in O. rewrite Vh in O.
  destruct (_ <? _)%Z; [discriminate|].
  assert (zslice (h ++ md ++ body) 4 (4 + Z.of_N (N.of_nat (length md))) = Ok md) as E2.
  { unfold zslice. replace (4 <? 0)%Z with false by lia. replace (4 + _ <? 0)%Z with false by lia. apply slice_app; [rewrite Lh; reflexivity|lia]. }
  rewrite E2 in O. cbn [bind] in O. rewrite U in O.
  destruct (mFields meta) as [|f fs] eqn:EF; [rewrite orb_true_r in O; discriminate|].
  destruct (_ || _); [discriminate|]. destruct (negb _); [discriminate|].
  assert (zslice (h ++ md ++ body) (4 + Z.of_N (N.of_nat (length md))) (Z.of_nat (length (h ++ md ++ body))) = Ok body) as E3.
  { unfold zslice. replace (4 + _ <? 0)%Z with false by lia. replace (Z.of_nat _ <? 0)%Z with false by lia.
    rewrite <- (app_nil_r body) at 1. rewrite app_assoc. apply slice_app; rewrite !app_length; lia. }
  rewrite E3 in O. cbn [bind] in O.
  destruct (HasIPv4 meta).
  - destruct (v4walk _ _ _ _ _) as [v4| | |]; cbn [bind] in O; try discriminate.
    destruct (initBitsCache _ _ _) as [c| | |]; cbn [bind] in O; try discriminate.
    match type of O with Ok ?x = Ok ?y => assert (y = x) as -> by congruence end. cbn [rMeta rData rFileSize rNodeCount rCont]. repeat split; congruence.
  - match type of O with Ok ?x = Ok ?y => assert (y = x) as -> by congruence end. cbn [rMeta rData rFileSize rNodeCount rCont]. repeat split; congruence.
Qed.

Lemma skipn_two {A} n m (l : list A) : skipn n (skipn m l) = skipn (n + m) l.
Proof. revert l; induction m as [|m IH]; intros l; [rewrite Nat.add_0_r; reflexivity|]. rewrite Nat.add_succ_r. destruct l; [rewrite !skipn_nil; reflexivity|]. cbn [skipn]. apply IH. Qed.
Lemma resolve_found r nc k x : rNodeCount r = Z.of_N nc -> (nc < x)%N -> (Z.of_nat (length (rData r)) <= rFileSize r)%Z ->
  exists o, found (rData r) (Z.to_N (rFileSize r)) nc k x o /\
    match o with
    | None => resolve r (Z.of_N x) = Panic
    | Some (t, m) => (resolve r (Z.of_N x) = Ok t /\ m = k) \/ ((exists e, resolve r (Z.of_N x) = Err e) /\ t = [] /\ m = 0)
    end.
Proof.
  intros En Hx Hs. unfold resolve. rewrite En.
  replace (Z.of_N x - Z.of_N nc + Z.of_N nc * 8)%Z with (Z.of_N (x + 7 * nc)) by lia. set (p := (x + 7 * nc)%N).
  destruct (Z.leb_spec (rFileSize r) (Z.of_N p)) as [L|L].
  { eexists. split; [apply found_outside; [assumption|fold p; lia]|]. right. eauto. }
  assert (zslice (rData r) (Z.of_N p) (Z.of_N p + 2) = slice (rData r) (N.to_nat p) (N.to_nat p + 2)) as Ez.
  { unfold zslice. replace (Z.of_N p <? 0)%Z with false by lia. replace (Z.of_N p + 2 <? 0)%Z with false by lia. f_equal; lia. }
  rewrite Ez. clear Ez.
  destruct (slice (rData r) (N.to_nat p) (N.to_nat p + 2)) as [s| | |] eqn:E; cbn [bind]; try (unfold slice in E; destruct (_ && _) in E; discriminate).
  2:{ exists None. split; [|reflexivity]. unfold slice in E. destruct (_ && _) eqn:Q in E; [discriminate|]. apply found_crash; fold p; [assumption|lia|lia]. }
  assert (number_at (rData r) (N.to_nat p) 2 (val s)) as Hn by (apply number_slice; eauto).
  apply slice_Ok in E as [Ls Es].
  destruct (Z.ltb_spec (Z.of_nat (length (rData r))) (Z.of_N p + 2 + Z.of_N (val s))) as [C|C].
  { eexists. split; [apply found_cut; [assumption|exists (val s); fold p; split; [assumption|lia]]|]. right. eauto. }
  unfold zslice. replace (Z.of_N p + 2 <? 0)%Z with false by lia. replace (Z.of_N p + 2 + _ <? 0)%Z with false by lia.
  replace (Z.to_nat (Z.of_N p + 2)) with (N.to_nat p + 2) by lia.
  replace (Z.to_nat (Z.of_N p + 2 + Z.of_N (val s))) with (N.to_nat p + 2 + N.to_nat (val s)) by lia.
  destruct (slice (rData r) (N.to_nat p + 2) _) as [t| | |] eqn:E; try (unfold slice in E; destruct (_ && _) eqn:Q in E; [discriminate|lia]).
  apply slice_Ok in E as [Lt Et]. exists (Some (t, k)). split; [|auto]. apply found_text; [assumption|].
  exists (firstn (N.to_nat p) (rData r)), s, (skipn (N.to_nat (val s)) (skipn (N.to_nat p + 2) (rData r))).
  assert (length t = N.to_nat (val s)) as Elt by (rewrite Et, firstn_length, skipn_length; lia).
  split; [|fold p; split; [rewrite firstn_length; lia|]; split; [rewrite Es, firstn_length, skipn_length; lia|lia]].
  subst s t. replace (N.to_nat p + 2 + _ - (N.to_nat p + 2)) with (N.to_nat (val (firstn (N.to_nat p + 2 - N.to_nat p) (skipn (N.to_nat p) (rData r))))) by lia.
  rewrite firstn_skipn. replace (N.to_nat p + 2 - N.to_nat p) with 2 by lia. rewrite (Nat.add_comm (N.to_nat p) 2), <- (skipn_two 2). rewrite !firstn_skipn. reflexivity.
Qed.

Definition found0 (r : Reader) (ip : bytes) : res (Z * bytes * nat) := match find0 r ip with Err _ => Ok (0%Z, [], 0) | y => y end.
Lemma found0_leads r nc ip : rinv r -> rNodeCount r = Z.of_N nc -> (8 * nc <= N.of_nat (length (rData r)))%N -> (Z.of_nat (length (rData r)) <= rFileSize r)%Z ->
  valid_ip ip -> has_family (rMeta r) (addr ip) = true ->
  exists k x o, leads (rData r) nc (abits (addr ip)) 0 k x /\ found (rData r) (Z.to_N (rFileSize r)) nc (family_mask (addr ip) k) x o /\
    match o with None => found0 r ip = Panic | Some (t, m) => exists node, found0 r ip = Ok (node, t, m) end.
Proof.
  intros RI En L8 Ls V HF. unfold has_family in HF. unfold family_mask.
  assert (G : forall (w : res (Z * nat)) n k0, w = Ok (Z.of_N n, k0) ->
     exists o, found (rData r) (Z.to_N (rFileSize r)) nc k0 n o /\
       match o with
       | None => (let* ' (node, mask) := (let* ' (n, k) := w in if (rNodeCount r <? n)%Z then Ok (n, k) else Err ErrDataNotExists) in let* bd := resolve r node in Ok (node, bd, mask)) = Panic
       | Some (t, m) => (exists e, (let* ' (node, mask) := (let* ' (n, k) := w in if (rNodeCount r <? n)%Z then Ok (n, k) else Err ErrDataNotExists) in let* bd := resolve r node in Ok (node, bd, mask)) = Err e) /\ t = [] /\ m = 0 \/
           (exists node, (let* ' (node, mask) := (let* ' (n, k) := w in if (rNodeCount r <? n)%Z then Ok (n, k) else Err ErrDataNotExists) in let* bd := resolve r node in Ok (node, bd, mask)) = Ok (node, t, m))
       end).
  { intros w n k0 ->. cbn [bind]. rewrite En. destruct (Z.ltb_spec (Z.of_N nc) (Z.of_N n)) as [Lx|Lx]; cbn [bind].
    - destruct (resolve_found r nc k0 n En ltac:(lia) Ls) as (o & F & R). exists o. split; [assumption|]. destruct o as [[t m]|].
      + destruct R as [[-> ->]|[[e ->] [-> ->]]]; cbn [bind]; eauto.
      + rewrite R. reflexivity.
    - eexists. split; [apply found_nothing; lia|]. left. eauto. }
  unfold found0, find0. rewrite is_nil_to4, negb_involutive by assumption.
  assert (is_nil (to16 ip) = false) as E16.
  { apply is_nil_false. intros Q. pose proof (to16_length ip V) as L. rewrite Q in L. discriminate. }
  rewrite E16. cbn [negb]. destruct (v4b (addr ip)) eqn:E4; rewrite HF.
  - assert (to4 ip <> []) as N4 by (apply is_nil_false; rewrite is_nil_to4, E4 by assumption; reflexivity).
    pose proof (proj2 (to4_spec ip V) N4) as [L4 A4].
    rewrite search_walk by (auto using bits_len4). cbn [Nat.eqb].
    assert (rCache r <> None) as HC by (pose proof (ri_has _ RI) as Q; rewrite HF in Q; destruct (rCache r); [discriminate|discriminate Q]).
    destruct (ri_off _ RI HC) as (k0 & W0). pose proof (ri_v4 _ RI) as V4.
    destruct (rwalk_total (rData r) nc (bits (to4 ip)) L8 (Z.to_N (rV4offset r))) as (x & k & W). rewrite Z2N.id in W by assumption. rewrite En in W0.
    assert (rwalk (rData r) (Z.of_N nc) (abits (addr ip)) (Z.of_N 0) = Ok (x, k0 + k)) as Wa.
    { rewrite <- A4, abits_v4, <- v4bits_nbits by assumption. rewrite rwalk_app. change (Z.of_N 0) with 0%Z. rewrite W0. cbn [bind]. rewrite W. reflexivity. }
    destruct (rwalk_leads _ _ _ _ _ _ Wa) as [Ld Px].
    assert (k0 + k - 96 = k) as Ek.
    { destruct (rwalk_used _ _ _ _ _ _ W0) as (U1 & U2 & _). change (length v4bits) with 96 in U1, U2. destruct U2 as [U2|U2]; [|lia].
      rewrite rwalk_done in W by assumption. assert (k = 0) as -> by congruence. lia. }
    rewrite En in G |- *. destruct (G (rwalk (rData r) (Z.of_N nc) (bits (to4 ip)) (rV4offset r)) (Z.to_N x) k ltac:(rewrite W, Z2N.id by assumption; reflexivity)) as (o & F & R).
    exists (k0 + k), (Z.to_N x), o. rewrite Ek. split; [assumption|]. split; [assumption|].
    destruct o as [[t m]|]; [destruct R as [[[e ->] [-> ->]]|[node ->]]; eauto|rewrite R; reflexivity].
  - rewrite search_walk by (auto using bits_len16, to16_length). cbn [Nat.eqb]. rewrite abits_to16 by assumption.
    destruct (rwalk_total (rData r) nc (abits (addr ip)) L8 0%N) as (x & k & W). change (Z.of_N 0) with 0%Z in W.
    destruct (rwalk_leads _ _ _ 0%N _ _ W) as [Ld Px].
    rewrite En in G |- *. destruct (G (rwalk (rData r) (Z.of_N nc) (abits (addr ip)) 0%Z) (Z.to_N x) k ltac:(rewrite W, Z2N.id by assumption; reflexivity)) as (o & F & R).
    exists k, (Z.to_N x), o. split; [assumption|]. split; [assumption|].
    destruct o as [[t m]|]; [destruct R as [[[e ->] [-> ->]]|[node ->]]; eauto|rewrite R; reflexivity].
Qed.

(* ---------- the columns ---------- *)
Lemma decode_code fields vals : length fields <= length vals ->
  match offset_of FieldContinentCode fields with
  | None => Ok (firstn (length fields) vals)
  | Some i => let* v := idx (firstn (length fields) vals) i in Ok (upd (firstn (length fields) vals) i (cont_name v))
  end = Ok (show_code fields (firstn (length fields) vals)).
Proof.
  revert vals; induction fields as [|f fs IH]; intros vals L; [reflexivity|].
  destruct vals as [|v vs]; [cbn in L; lia|]. cbn [offset_of length firstn show_code].
  specialize (IH vs ltac:(cbn in L; lia)).
  destruct (bytes_eqb_spec f FieldContinentCode) as [->|N].
  - change (bytes_eqb FieldContinentCode (str "continent_code")) with true. unfold idx. cbn [upd bind nth_error]. rewrite cont_name_spec. reflexivity.
  - destruct (bytes_eqb_spec f (str "continent_code")) as [->|_]; [exfalso; apply N; reflexivity|].
    destruct (offset_of FieldContinentCode fs) as [i|]; [|congruence]. unfold idx in *. cbn [nth_error upd].
    destruct (nth_error (firstn (length fs) vs) i); cbn [bind] in *; [|discriminate]. congruence.
Qed.
Lemma colc_column name fields values : colc name (combine fields values) = column [name] fields values.
Proof.
  unfold colc, column. do 2 f_equal. revert values; induction fields as [|f fs IH]; intros [|v vs]; try reflexivity.
  cbn [combine filter fst]. unfold in_array at 1. cbn [existsb]. rewrite orb_false_r.
  destruct (bytes_eqb f name); rewrite IH; reflexivity.
Qed.

Lemma info_shown r fields off text cols : mFields (rMeta r) = fields -> fields <> [] -> rCont r = offset_of FieldContinentCode fields ->
  assoc (str "CN") (mLanguages (rMeta r)) = Some (Z.of_nat off) -> columns text cols ->
  forall m, triple (let* info := info_of r text in Ok (info, m)) = shown_as fields off cols m.
Proof.
  intros Ef Nf Ec El (Nc & Ft & <-) m. unfold info_of. rewrite El. unfold decodeInfo. rewrite split_join, Ef, Ec by assumption. unfold shown_as.
  destruct (Nat.ltb_spec (length cols) (off + length fields)) as [L|L].
  { replace (Z.of_nat (length cols) <? Z.of_nat off + Z.of_nat (length fields))%Z with true by lia. reflexivity. }
  replace (Z.of_nat (length cols) <? Z.of_nat off + Z.of_nat (length fields))%Z with false by lia. replace (Z.of_nat off <? 0)%Z with false by lia.
  unfold slice at 1. rewrite Nat2Z.id. replace (Z.to_nat (Z.of_nat off + Z.of_nat (length fields))) with (off + length fields) by lia.
  replace ((off <=? off + length fields) && (off + length fields <=? length cols)) with true by lia. cbn [bind].
  replace (off + length fields - off) with (length fields) by lia.
  rewrite decode_code by (rewrite skipn_length; lia). cbn [bind triple]. unfold file_info, make_info. rewrite make_info_cols, !colc_column. reflexivity.
Qed.

(** C64: every query of every file that opens, whatever is in it. *)
Theorem C64_answer : forall E ipList data q md body meta off,
  NewDbFromBytes (serverFormats E) ipList (str ".ipdb") data = Ok q ->
  file_is data md body -> jUnMeta E md = Some meta ->
  assoc (str "CN") (mLanguages meta) = Some (Z.of_nat off) ->
  (0 <= mNodeCount meta)%Z -> (8 * mNodeCount meta <= Z.of_nat (length body))%Z ->
  let nc := Z.to_N (mNodeCount meta) in
  forall ip, valid_ip ip -> has_family meta (addr ip) = true ->
  exists k x o, leads body nc (abits (addr ip)) 0 k x /\
    found body (N.of_nat (length data)) nc (family_mask (addr ip) k) x o /\
    match o with
    | None => QueryStr q (ip_string ip) = Panic
    | Some (text, m) => exists cols, columns text cols /\ QueryStr q (ip_string ip) = shown_as (mFields meta) off cols m
    end.
Proof.
  intros E il data q md body meta off HQ HF HU HL Hn0 Hn8 nc ip V Fa.
  destruct (open_query _ _ _ _ HQ) as (r & c & -> & O & Q).
  destruct (opened _ _ _ _ _ _ O HF HU) as (E1 & E2 & E3 & E4 & E5 & E6). pose proof (open_rinv _ _ _ O) as RI.
  assert (rNodeCount r = Z.of_N nc) as En by (rewrite E4; unfold nc; lia).
  assert (length body <= length data) as Lb by (destruct HF as (h & -> & _); rewrite !app_length; lia).
  destruct (found0_leads r nc ip RI En) as (k & x & o & Ld & Fo & R); [rewrite E2; unfold nc; lia|rewrite E2, E3; lia|assumption|rewrite E1; assumption|].
  rewrite E2, E3 in *. replace (Z.to_N (Z.of_nat (length data))) with (N.of_nat (length data)) in Fo by lia.
  exists k, x, o. split; [assumption|]. split; [assumption|]. rewrite C47_str, Q by assumption.
  assert (Hq : triple (Query r [] ip) = triple (let* ' (_, bd, mask) := found0 r ip in let* info := info_of r bd in Ok (info, mask))).
  { unfold Query. rewrite QueryInternal_cache by (try assumption; intros ? ? X; discriminate X). rewrite QueryInternal_false. fold (found0 r ip).
    destruct (found0 r ip) as [[[node bd] mask]| | |]; cbn [bind]; try reflexivity. destruct (info_of r bd); reflexivity. }
  rewrite Hq. destruct o as [[t m]|].
  - destruct R as [node ->]. cbn [bind]. exists (split x09 t).
    assert (columns t (split x09 t)) as Hc by (split; [apply split_nonnil|split; [apply split_no_byte|apply join_split]]).
    split; [assumption|]. apply info_shown; rewrite ?E1; (assumption || reflexivity).
  - rewrite R. reflexivity.
Qed.
Print Assumptions C64_answer.

(** ... and the specification leaves no choice. *)
Theorem C64_unique : forall body size nc a k x o k' x' o', (N.of_nat (length body) <= size)%N ->
  leads body nc (abits a) 0 k x -> found body size nc (family_mask a k) x o ->
  leads body nc (abits a) 0 k' x' -> found body size nc (family_mask a k') x' o' -> k = k' /\ x = x' /\ o = o'.
Proof.
  intros body size nc a k x o k' x' o' L H1 H2 H3 H4. destruct (leads_unique _ _ _ _ _ _ H1 _ _ H3) as [<- <-].
  split; [reflexivity|]. split; [reflexivity|]. eapply found_unique; eassumption.
Qed.
Print Assumptions C64_unique.

(** An address of a family that the file does not have is shown as an empty text. *)
Theorem C64_no_family : forall E ipList data q md body meta off,
  NewDbFromBytes (serverFormats E) ipList (str ".ipdb") data = Ok q ->
  file_is data md body -> jUnMeta E md = Some meta -> assoc (str "CN") (mLanguages meta) = Some (Z.of_nat off) ->
  forall ip, valid_ip ip -> has_family meta (addr ip) = false -> QueryStr q (ip_string ip) = shown_as (mFields meta) off [[]] 0.
Proof.
  intros E il data q md body meta off HQ HF HU HL ip V Fa.
  destruct (open_query _ _ _ _ HQ) as (r & c & -> & O & Q).
  destruct (opened _ _ _ _ _ _ O HF HU) as (E1 & E2 & E3 & E4 & E5 & E6). pose proof (open_rinv _ _ _ O) as RI.
  rewrite C47_str, Q by assumption. unfold Query.
  rewrite QueryInternal_cache by (try assumption; intros ? ? X; discriminate X). rewrite QueryInternal_false.
  assert (exists e, find0 r ip = Err e) as [e ->].
  { unfold find0, has_family in *. rewrite is_nil_to4, negb_involutive, E1 by assumption. destruct (v4b (addr ip)); rewrite Fa; [eauto|].
    destruct (is_nil (to16 ip)); cbn [negb]; eauto. }
  cbn [bind]. rewrite <- (info_shown r (mFields meta) off [] [[]]); rewrite ?E1; try assumption; try reflexivity.
  - destruct (info_of r []); reflexivity.
  - split; [discriminate|]. split; [repeat constructor; intros []|reflexivity].
Qed.
Print Assumptions C64_no_family.

(** A file with a complete description, the right size and room for its nodes opens. *)
Lemma mapM_total {A B} (f : A -> res B) l : (forall a, In a l -> exists b, f a = Ok b) -> exists bs, mapM f l = Ok bs.
Proof.
  induction l as [|a l IH]; intros H; [eexists; reflexivity|]. cbn [mapM]. destruct (H a (or_introl eq_refl)) as [b ->]. cbn [bind].
  destruct IH as [bs ->]; [intros; apply H; right; assumption|]. cbn [bind]. eauto.
Qed.
Theorem C64_opens : forall E data md body meta,
  file_is data md body -> jUnMeta E md = Some meta -> mLanguages meta <> [] -> mFields meta <> [] ->
  mTotalSize meta = Z.of_nat (length body) -> (0 <= mNodeCount meta)%Z -> (8 * mNodeCount meta <= Z.of_nat (length body))%Z ->
  exists q, NewDbFromBytes (serverFormats E) [] (str ".ipdb") data = Ok q.
Proof.
  intros E data md body meta (h & -> & Lh & Vh) U NL NF HS H0 H8.
  unfold NewDbFromBytes.
  change (GetQueryFormat (serverFormats E) (str ".ipdb")) with (Some (fun data => let* ' (r, c) := newQuerier (jUnMeta E) data in Ok (QIpdb r c))).
  cbv beta iota. unfold newQuerier. enough (exists r, newReaderFromBytes (jUnMeta E) (h ++ md ++ body) = Ok r) as [r ->] by (cbn [bind q_build map BuildCache]; eauto).
  unfold newReaderFromBytes.
  assert (slice (h ++ md ++ body) 0 4 = Ok h) as -> by (apply (slice_app [] h (md ++ body)); [reflexivity|rewrite Lh; reflexivity]).
  cbn [bind]. rewrite Vh. match goal with |- context [(?x <? ?y)%Z] => replace (x <? y)%Z with false by (rewrite !app_length; lia) end.
  assert (zslice (h ++ md ++ body) 4 (4 + Z.of_N (N.of_nat (length md))) = Ok md) as ->.
  { unfold zslice. replace (4 <? 0)%Z with false by lia. replace (4 + _ <? 0)%Z with false by lia. apply slice_app; [rewrite Lh; reflexivity|lia]. }
  cbn [bind]. rewrite U.
  destruct (mLanguages meta); [contradiction|]. destruct (mFields meta); [contradiction|]. cbn [length Nat.eqb orb].
  replace (Z.of_nat (length (h ++ md ++ body)) =? 4 + Z.of_N (N.of_nat (length md)) + mTotalSize meta)%Z with true by (rewrite !app_length; lia). cbn [negb].
  assert (zslice (h ++ md ++ body) (4 + Z.of_N (N.of_nat (length md))) (Z.of_nat (length (h ++ md ++ body))) = Ok body) as ->.
  { unfold zslice. replace (4 + _ <? 0)%Z with false by lia. replace (Z.of_nat _ <? 0)%Z with false by lia.
    rewrite <- (app_nil_r body) at 1. rewrite app_assoc. apply slice_app; rewrite !app_length; lia. }
  cbn [bind]. destruct (HasIPv4 meta); [|eauto].
  rewrite v4walk_walk by lia. change (skipn 0 v4bits) with v4bits. rewrite (firstn_all2 v4bits) by (vm_compute; lia).
  rewrite <- (Z2N.id (mNodeCount meta)) by assumption. set (nc := Z.to_N (mNodeCount meta)) in *.
  assert (8 * nc <= N.of_nat (length body))%N as L8 by (unfold nc; lia).
  destruct (rwalk_total body nc v4bits L8 0%N) as (v4 & k & W). change (Z.of_N 0) with 0%Z in W. rewrite W. cbn [bind].
  pose proof (proj2 (rwalk_leads body nc v4bits 0%N v4 k W)) as P4.
  enough (exists c, initBitsCache body (Z.of_N nc) v4 = Ok c) as [c ->] by (cbn [bind]; eauto).
  unfold initBitsCache. apply mapM_total. intros i _. unfold setCache, readDepth.
  rewrite readDepth_loop_walk by (cbn; lia). rewrite <- (Z2N.id v4) by assumption.
  destruct (rwalk_total body nc (firstn (cacheDepth - 0) (skipn 0 (bits (indexToBytes i)))) L8 (Z.to_N v4)) as (x & k' & ->). cbn [bind]. eauto.
Qed.
Print Assumptions C64_opens.

(** Which files can crash a query: exactly those with a link into the gap between the end of the
    records and the size of the file (the size compared with includes the description). *)
Theorem C64_crash : forall E ipList data q md body meta off,
  NewDbFromBytes (serverFormats E) ipList (str ".ipdb") data = Ok q ->
  file_is data md body -> jUnMeta E md = Some meta -> assoc (str "CN") (mLanguages meta) = Some (Z.of_nat off) ->
  (0 <= mNodeCount meta)%Z -> (8 * mNodeCount meta <= Z.of_nat (length body))%Z ->
  let nc := Z.to_N (mNodeCount meta) in
  forall ip, valid_ip ip ->
  (QueryStr q (ip_string ip) = Panic <->
   has_family meta (addr ip) = true /\ exists k x, leads body nc (abits (addr ip)) 0 k x /\ (nc < x)%N /\
     (N.of_nat (length body) < x + 7 * nc + 2)%N /\ (x + 7 * nc < N.of_nat (length data))%N).
Proof.
  intros E il data q md body meta off HQ HF HU HL H0 H8 nc ip V.
  assert (length body <= length data) as Lb by (destruct HF as (h & -> & _); rewrite !app_length; lia).
  assert (NP : forall f o c m, shown_as f o c m <> Panic) by (intros f o c m; unfold shown_as; destruct (_ <? _); discriminate).
  destruct (has_family meta (addr ip)) eqn:Fa.
  - destruct (C64_answer _ _ _ _ _ _ _ _ HQ HF HU HL H0 H8 ip V Fa) as (k & x & o & Ld & Fo & R). fold nc in Ld, Fo. split.
    + intros P. split; [reflexivity|]. exists k, x. split; [assumption|]. destruct o as [[t m]|].
      * destruct R as (cols & _ & R). rewrite R in P. exfalso. exact (NP _ _ _ _ P).
      * inversion Fo; subst. auto.
    + intros [_ (k' & x' & Ld' & N1 & N2 & N3)]. destruct (leads_unique _ _ _ _ _ _ Ld _ _ Ld') as [<- <-].
      assert (o = None) as -> by (eapply found_unique; [|exact Fo|apply found_crash; assumption]; lia). exact R.
  - rewrite (C64_no_family _ _ _ _ _ _ _ _ HQ HF HU HL ip V Fa). split; [intros P; exfalso; exact (NP _ _ _ _ P)|intros [Q _]; discriminate Q].
Qed.
Print Assumptions C64_crash.
Lemma leads_link body nc bs n k x : leads body nc bs n k x -> x = n \/ exists i (b : bool), (i < nc)%N /\ number_at body (8 * N.to_nat i + (if b then 4 else 0)) 4 x.
Proof.
  induction 1 as [bs n L|n|b bs n m k x L Hm _ IH]; [left; reflexivity|left; reflexivity|].
  right. destruct IH as [->|IH]; eauto.
Qed.
(** ... so a file without such a link never crashes. *)
Theorem C64_safe : forall E ipList data q md body meta off,
  NewDbFromBytes (serverFormats E) ipList (str ".ipdb") data = Ok q ->
  file_is data md body -> jUnMeta E md = Some meta -> assoc (str "CN") (mLanguages meta) = Some (Z.of_nat off) ->
  (0 <= mNodeCount meta)%Z -> (8 * mNodeCount meta <= Z.of_nat (length body))%Z ->
  let nc := Z.to_N (mNodeCount meta) in
  (forall i (b : bool) x, (i < nc)%N -> number_at body (8 * N.to_nat i + (if b then 4 else 0)) 4 x -> (nc < x)%N ->
     (x + 7 * nc + 2 <= N.of_nat (length body))%N \/ (N.of_nat (length data) <= x + 7 * nc)%N) ->
  forall ip, valid_ip ip ->
    (exists i m, QueryStr q (ip_string ip) = Ok (Some i, m, None)) \/ (exists e, QueryStr q (ip_string ip) = Ok (None, 0, Some e)).
Proof.
  intros E il data q md body meta off HQ HF HU HL H0 H8 nc Hl ip V.
  assert (Sh : forall f o c m, (exists i m', shown_as f o c m = Ok (Some i, m', None)) \/ (exists e, shown_as f o c m = Ok (None, 0, Some e)))
    by (intros f o c m; unfold shown_as; destruct (_ <? _); eauto).
  destruct (has_family meta (addr ip)) eqn:Fa.
  - destruct (C64_answer _ _ _ _ _ _ _ _ HQ HF HU HL H0 H8 ip V Fa) as (k & x & o & Ld & Fo & R). fold nc in Ld, Fo. destruct o as [[t m]|].
    + destruct R as (cols & _ & ->). apply Sh.
    + exfalso. inversion Fo as [| | | |N1 N2 N3]. destruct (leads_link _ _ _ _ _ _ Ld) as [->|(i & b & Hi & Hx)]; [lia|].
      destruct (Hl i b x Hi Hx N1); lia.
  - rewrite (C64_no_family _ _ _ _ _ _ _ _ HQ HF HU HL ip V Fa). apply Sh.
Qed.
Print Assumptions C64_safe.

(** The number of nodes is not compared with the size of the file: when the bits of an address
    lead to a node outside of it, the query crashes. *)
Theorem C64_node_count : forall E ipList data q md body meta,
  NewDbFromBytes (serverFormats E) ipList (str ".ipdb") data = Ok q ->
  file_is data md body -> jUnMeta E md = Some meta -> (0 <= mNodeCount meta)%Z ->
  let nc := Z.to_N (mNodeCount meta) in
  forall ip bs1 (b : bool) bs2 k n, valid_ip ip -> has_family meta (addr ip) = true -> abits (addr ip) = bs1 ++ b :: bs2 ->
    leads body nc bs1 0 k n -> (n < nc)%N -> (N.of_nat (length body) < 8 * n + (if b then 8 else 4))%N ->
    QueryStr q (ip_string ip) = Panic.
Proof.
  intros E il data q md body meta HQ HF HU H0 nc ip bs1 b bs2 k n V Fa Hb Ld Hn Hl.
  destruct (open_query _ _ _ _ HQ) as (r & c & -> & O & Q).
  destruct (opened _ _ _ _ _ _ O HF HU) as (E1 & E2 & E3 & E4 & E5 & E6). pose proof (open_rinv _ _ _ O) as RI.
  assert (rNodeCount r = Z.of_N nc) as En by (rewrite E4; unfold nc; lia).
  assert (forall bs n0 k0 n1, leads body nc bs n0 k0 n1 -> (n1 < nc)%N -> rwalk body (Z.of_N nc) bs (Z.of_N n0) = Ok (Z.of_N n1, k0)) as Wk.
  { clear. induction 1 as [bs n L|n|b bs n m k x L Hm _ IH]; intros Hx; [lia|reflexivity|].
    cbn [rwalk]. replace (Z.of_N nc <=? Z.of_N n)%Z with false by lia.
    assert (readNode body (Z.of_N n) b = Ok (Z.of_N m)) as ->; [|cbn [bind]; rewrite IH by assumption; reflexivity].
    apply number_slice in Hm as (s & Hs & <-). unfold readNode, zslice.
    replace (Z.of_N n * 8 + (if b then 4 else 0) <? 0)%Z with false by (destruct b; lia).
    replace (Z.of_N n * 8 + (if b then 4 else 0) + 4 <? 0)%Z with false by (destruct b; lia).
    replace (Z.to_nat (Z.of_N n * 8 + (if b then 4 else 0))) with (8 * N.to_nat n + (if b then 4 else 0))%nat by (destruct b; lia).
    replace (Z.to_nat (Z.of_N n * 8 + (if b then 4 else 0) + 4)) with (8 * N.to_nat n + (if b then 4 else 0) + 4)%nat by (destruct b; lia).
    rewrite Hs. reflexivity. }
  assert (rwalk body (Z.of_N nc) (abits (addr ip)) 0 = Panic) as W.
  { rewrite Hb, rwalk_app. change 0%Z with (Z.of_N 0). rewrite (Wk _ _ _ _ Ld Hn). cbn [bind rwalk].
    replace (Z.of_N nc <=? Z.of_N n)%Z with false by lia.
    assert (readNode body (Z.of_N n) b = Panic) as ->; [|reflexivity]. unfold readNode, zslice.
    replace (Z.of_N n * 8 + (if b then 4 else 0) <? 0)%Z with false by (destruct b; lia).
    replace (Z.of_N n * 8 + (if b then 4 else 0) + 4 <? 0)%Z with false by (destruct b; lia).
    unfold slice. match goal with |- context [(?x <=? ?y) && (?z <=? ?w)] => replace ((x <=? y) && (z <=? w)) with false by (destruct b; lia) end. reflexivity. }
  rewrite C47_str, Q by assumption. unfold Query.
  rewrite QueryInternal_cache by (try assumption; intros ? ? X; discriminate X). rewrite QueryInternal_false.
  assert (find0 r ip = Panic) as ->; [|reflexivity].
  unfold find0. rewrite is_nil_to4, negb_involutive, E1 by assumption. unfold has_family in Fa.
  assert (is_nil (to16 ip) = false) as E16.
  { apply is_nil_false. intros X. pose proof (to16_length ip V) as L. rewrite X in L. discriminate. }
  rewrite E16. cbn [negb]. destruct (v4b (addr ip)) eqn:E4'; rewrite Fa.
  - assert (to4 ip <> []) as N4 by (apply is_nil_false; rewrite is_nil_to4, E4' by assumption; reflexivity).
    pose proof (proj2 (to4_spec ip V) N4) as [L4 A4].
    rewrite search_walk by (auto using bits_len4). cbn [Nat.eqb].
    assert (rCache r <> None) as HC by (pose proof (ri_has _ RI) as X; rewrite E1, Fa in X; destruct (rCache r); [discriminate|discriminate X]).
    destruct (ri_off _ RI HC) as (k0 & W0). rewrite E2, En in *.
    rewrite <- A4, abits_v4, <- v4bits_nbits, rwalk_app, W0 in W by assumption. cbn [bind] in W.
    destruct (rwalk _ _ (bits (to4 ip)) _) as [[x y]| | |]; cbn [bind] in *; try discriminate W. reflexivity.
  - rewrite search_walk by (auto using bits_len16, to16_length). cbn [Nat.eqb]. rewrite abits_to16, E2, En, W by assumption. reflexivity.
Qed.
Print Assumptions C64_node_count.

(* ------------------------------------------------------------------ *)
(** A case: a file for IPv6 with one node; the second link points behind the records. *)
Definition gap_body : bytes := [x00; x00; x00; x02; x00; x00; x00; x0c; x00; x00; x01; x41].
Definition gap_meta : MetaData := mkMeta 0 2 [(str "CN", 0%Z)] 1 12 [str "country_name"] (str "v1") [].
Definition gap_md : bytes := jMeta case_env gap_meta.
Definition gap_file : bytes := IntToBinaryBE (Z.of_nat (length gap_md)) 32 ++ gap_md ++ gap_body.
Example C64_case : file_is gap_file gap_md gap_body /\ jUnMeta case_env gap_md = Some gap_meta /\
  assoc (str "CN") (mLanguages gap_meta) = Some (Z.of_nat 0) /\ (0 <= mNodeCount gap_meta)%Z /\ (8 * mNodeCount gap_meta <= Z.of_nat (length gap_body))%Z /\
  (exists q, NewDbFromBytes (serverFormats case_env) [] (str ".ipdb") gap_file = Ok q /\
     QueryStr q (str "1::") = Ok (Some (mkInfo (str "A") [] [] [] [] [] [] []), 1, None) /\
     QueryStr q (str "8000::") = Panic) /\
  leads gap_body 1 (abits (2 ^ 127)) 0 1 12.
Proof.
  split. { exists (IntToBinaryBE (Z.of_nat (length gap_md)) 32). split; [reflexivity|]. split; vm_compute; reflexivity. }
  split; [vm_compute; reflexivity|]. split; [reflexivity|]. split; [vm_compute; discriminate|]. split; [vm_compute; discriminate|]. split.
  { assert (match NewDbFromBytes (serverFormats case_env) [] (str ".ipdb") gap_file with
            | Ok q => Some (QueryStr q (str "1::"), QueryStr q (str "8000::")) | _ => None end =
            Some (Ok (Some (mkInfo (str "A") [] [] [] [] [] [] []), 1, None), Panic)) as R by (vm_compute; reflexivity).
    destruct (NewDbFromBytes _ _ _ _) as [q| | |]; try discriminate R. exists q. split; [reflexivity|]. split; congruence. }
  replace (abits (2 ^ 127)) with (true :: repeat false 127) by (vm_compute; reflexivity).
  eapply leads_step; [reflexivity| |apply leads_leaf; discriminate].
  exists [x00; x00; x00; x02], [x00; x00; x00; x0c], [x00; x00; x01; x41]. repeat split.
Qed.
(** ... and one that says it has three nodes: it opens, and the query crashes. *)
Definition short_meta : MetaData := mkMeta 0 2 [(str "CN", 0%Z)] 3 12 [str "country_name"] (str "v1") [].
Definition short_md : bytes := jMeta case_env short_meta.
Definition short_file : bytes := IntToBinaryBE (Z.of_nat (length short_md)) 32 ++ short_md ++ gap_body.
Example C64_node_count_case : file_is short_file short_md gap_body /\ jUnMeta case_env short_md = Some short_meta /\
  (exists q, NewDbFromBytes (serverFormats case_env) [] (str ".ipdb") short_file = Ok q) /\
  abits 0 = [false] ++ false :: repeat false 126 /\ leads gap_body 3 [false] 0 1 2 /\ (N.of_nat (length gap_body) < 8 * 2 + 4)%N.
Proof.
  split. { exists (IntToBinaryBE (Z.of_nat (length short_md)) 32). split; [reflexivity|]. split; vm_compute; reflexivity. }
  split; [vm_compute; reflexivity|]. split.
  { assert (match NewDbFromBytes (serverFormats case_env) [] (str ".ipdb") short_file with Ok q => true | _ => false end = true) as R by (vm_compute; reflexivity).
    destruct (NewDbFromBytes _ _ _ _) as [q| | |]; try discriminate R. eauto. }
  split; [vm_compute; reflexivity|]. split; [|reflexivity].
  eapply leads_step; [reflexivity| |apply leads_end].
  exists [], [x00; x00; x00; x02], [x00; x00; x00; x0c; x00; x00; x01; x41]. repeat split.
Qed.

(** C52, C53: packing one dataset several times; the continent written into the dataset. *)
From Verif Require Import Base NetIP IpNet Spec IpNetProofs SplitProofs IpNetProofs2 Inf Ipdb SpecIpdb Bits TrieProofs WriterProofs ReaderProofs OpenProofs PackProofs PropsIpdb.
From Verif Require Import Export SpecExport Tables Operate SpecOperate OperateProofs OperateProofs2 NetText NetTextProofs Plain SpecText PlainProofs PropsPlain Memip AwDecode AwTree Facade PropsFacade2.
Open Scope nat_scope.

(* ------------------------------------------------------------------ *)
(** ** Datasets made by dumps *)
Lemma fresh_rows_spec l spare : forall k prev h0, length h0 = k ->
  match prev with Some v => 0 < k /\ exists t, nth (k - 1) h0 [] = v ++ t | None => True end ->
  let '(rows, h) := fresh_rows k spare prev l in
  map (fun r => mkRaw (fst r) (view (h0 ++ h) (snd r))) rows = l /\
  Forall (fun r => legal_slc (h0 ++ h) (snd r)) rows /\
  (forall r, In r rows -> (sArr (snd r) = k - 1 /\ (exists v, prev = Some v /\ sLen (snd r) = length v)) \/ k <= sArr (snd r)) /\
  (forall r r', In r rows -> In r' rows -> sArr (snd r) = sArr (snd r') -> sLen (snd r) = sLen (snd r')).
Proof.
  induction l as [|x l IH]; intros k prev h0 L P; cbn [fresh_rows].
  - split; [reflexivity|]. split; [constructor|]. split; [intros r []|intros r r' []].
  - destruct (match prev with Some v => strs_eqb (fvals x) v | None => false end) eqn:Eq.
    + destruct prev as [v|]; [|discriminate]. destruct (strs_eqb_spec (fvals x) v) as [Ev|]; [|discriminate].
      specialize (IH k (Some v) h0 L P). destruct (fresh_rows k spare (Some v) l) as [rows h]. destruct IH as (I1 & I2 & I3 & I4).
      destruct P as [K [t Et]].
      assert (A : arr (h0 ++ h) (k - 1) = v ++ t) by (unfold arr; rewrite app_nth1 by lia; exact Et).
      split; [|split; [|split]].
      * cbn [map fst snd]. rewrite I1. unfold view. cbn [sArr sLen]. rewrite A, Ev, firstn_app, Nat.sub_diag, firstn_all, firstn_O, app_nil_r.
        rewrite <- Ev. destruct x; reflexivity.
      * constructor; [|assumption]. unfold legal_slc. cbn [snd sArr sLen]. rewrite A, !app_length, Ev. lia.
      * intros r [<-|I]; [left; cbn [snd sArr sLen]; split; [reflexivity|]; exists v; rewrite Ev; auto|auto].
      * intros r r' [<-|I] [<-|I'] Ea; cbn [snd sArr sLen] in *; auto.
        -- destruct (I3 _ I') as [[_ (w & Q & Lw)]|Lk]; [injection Q as <-; rewrite Ev; congruence|lia].
        -- destruct (I3 _ I) as [[_ (w & Q & Lw)]|Lk]; [injection Q as <-; rewrite Ev; congruence|lia].
    + set (a := fvals x ++ repeat [] (spare k)).
      specialize (IH (S k) (Some (fvals x)) (h0 ++ [a])).
      destruct (fresh_rows (S k) spare (Some (fvals x)) l) as [rows h].
      destruct IH as (I1 & I2 & I3 & I4).
      { rewrite app_length. cbn. lia. }
      { split; [lia|]. exists (repeat [] (spare k)). replace (S k - 1) with k by lia. rewrite app_nth2, L, Nat.sub_diag by lia. reflexivity. }
      rewrite <- app_assoc in I1, I2. cbn [app] in I1, I2.
      assert (A : arr (h0 ++ a :: h) k = a) by (unfold arr; rewrite app_nth2, L, Nat.sub_diag by lia; reflexivity).
      split; [|split; [|split]].
      * cbn [map fst snd]. rewrite I1. unfold view. cbn [sArr sLen]. rewrite A. unfold a. rewrite firstn_app, Nat.sub_diag, firstn_all, firstn_O, app_nil_r.
        destruct x; reflexivity.
      * constructor; [|assumption]. unfold legal_slc. cbn [snd sArr sLen]. rewrite A. unfold a. rewrite !app_length. cbn [length]. lia.
      * intros r [<-|I]; [right; cbn; lia|]. destruct (I3 _ I) as [[Q _]|Q]; right; lia.
      * intros r r' [<-|I] [<-|I'] Ea; cbn [snd sArr sLen] in *; auto.
        -- destruct (I3 _ I') as [[_ (w & Q & Lw)]|Lk]; [congruence|lia].
        -- destruct (I3 _ I) as [[_ (w & Q & Lw)]|Lk]; [congruence|lia].
Qed.
(** The slices of a dump make no difference to its contents, are legal, and rows that share
    an array share the whole slice. *)
Lemma fresh_spec spare d : contents (fresh spare d) = d /\ legal (fresh spare d) /\ whole_sharing (fresh spare d).
Proof.
  unfold fresh. pose proof (fresh_rows_spec (dIps d) spare 0 None [] eq_refl I) as H.
  destruct (fresh_rows 0 spare None (dIps d)) as [rows h]. destruct H as (A & B & _ & C). cbn [app] in A, B.
  split; [|split].
  - unfold contents. cbn [hFields hVersion hRows hHeap]. rewrite A. destruct d; reflexivity.
  - exact B.
  - exact C.
Qed.
(** Without unused cells every slice fills its array. *)
Lemma fresh_rows_full l spare : (forall k, spare k = 0) -> forall k prev h0, length h0 = k ->
  match prev with Some v => 0 < k /\ nth (k - 1) h0 [] = v | None => True end ->
  let '(rows, h) := fresh_rows k spare prev l in
  Forall (fun r => sLen (snd r) = length (arr (h0 ++ h) (sArr (snd r)))) rows.
Proof.
  intros Z. induction l as [|x l IH]; intros k prev h0 L P; cbn [fresh_rows]; [constructor|].
  destruct (match prev with Some v => strs_eqb (fvals x) v | None => false end) eqn:Eq.
  - destruct prev as [v|]; [|discriminate]. destruct (strs_eqb_spec (fvals x) v) as [Ev|]; [|discriminate].
    specialize (IH k (Some v) h0 L P). destruct (fresh_rows k spare (Some v) l) as [rows h]. destruct P as [K Et].
    constructor; [|assumption]. cbn [snd sLen sArr]. unfold arr. rewrite app_nth1 by lia. congruence.
  - specialize (IH (S k) (Some (fvals x)) (h0 ++ [fvals x ++ repeat [] (spare k)])).
    destruct (fresh_rows (S k) spare (Some (fvals x)) l) as [rows h]. rewrite <- app_assoc in IH. cbn [app] in IH.
    constructor.
    + cbn [snd sLen sArr]. unfold arr. rewrite app_nth2, L, Nat.sub_diag by lia. cbn [nth]. rewrite Z, app_length. cbn. lia.
    + apply IH; [rewrite app_length; cbn; lia|]. split; [lia|]. replace (S k - 1) with k by lia. rewrite app_nth2, L, Nat.sub_diag by lia. cbn [nth]. rewrite Z. apply app_nil_r.
Qed.
Lemma fresh_full spare d : (forall k, spare k = 0) -> Forall (full (fresh spare d)) (hRows (fresh spare d)).
Proof.
  intros Z. unfold fresh. pose proof (fresh_rows_full (dIps d) spare Z 0 None [] eq_refl I) as H.
  destruct (fresh_rows 0 spare None (dIps d)) as [rows h]. exact H.
Qed.
Lemma mem_splitH_spec l : forall k h0, length h0 = k ->
  match mem_splitH k l, mem_split l with
  | Ok rows, Ok raws => map (fun r => mkRaw (fst r) (view (h0 ++ map snd l) (snd r))) rows = raws /\
      Forall (fun r => legal_slc (h0 ++ map snd l) (snd r)) rows
  | Err e, Err e' => e = e'
  | Panic, Panic => True
  | OutOfFuel, OutOfFuel => True
  | _, _ => False
  end.
Proof.
  induction l as [|[r v] l IH]; intros k h0 L; cbn [mem_splitH mem_split map snd].
  - split; [reflexivity|constructor].
  - destruct (IPNets r) as [nets| | |]; cbn [bind]; auto.
    specialize (IH (S k) (h0 ++ [v])). rewrite <- app_assoc in IH. cbn [app] in IH.
    destruct (mem_splitH (S k) l) as [rows| | |]; destruct (mem_split l) as [raws| | |]; cbn [bind];
      try (apply IH; rewrite app_length; cbn; lia).
    destruct IH as [I1 I2]; [rewrite app_length; cbn; lia|]. rewrite map_app, map_map, I1.
    assert (A : arr (h0 ++ v :: map snd l) k = v) by (unfold arr; rewrite app_nth2, L, Nat.sub_diag by lia; reflexivity).
    split.
    + f_equal. apply map_ext. intros n. cbn [fst snd]. unfold view. cbn [sArr sLen]. rewrite A, firstn_all. reflexivity.
    + apply Forall_app. split; [|assumption]. apply Forall_forall. intros x I. apply in_map_iff in I as [n [<- _]].
      unfold legal_slc. cbn [snd sArr sLen]. rewrite A, app_length. cbn [length]. lia.
Qed.
Lemma mdumpH_spec now today data :
  match mdumpH now today data, mdump now today data with
  | Ok d, Ok d' => contents d = d' /\ legal d
  | Err e, Err e' => e = e'
  | Panic, Panic => True
  | OutOfFuel, OutOfFuel => True
  | _, _ => False
  end.
Proof.
  unfold mdumpH, mdump. destruct (mem_rows (scan_lines data)) as [rs| | |]; cbn [bind]; auto.
  pose proof (mem_splitH_spec rs 0 [] eq_refl) as H. cbn [app] in H.
  destruct (mem_splitH 0 rs) as [rows| | |]; destruct (mem_split rs) as [raws| | |]; cbn [bind] in *; auto; try contradiction.
  destruct H as [H1 H2]. destruct (idx (scan_lines data) 0) as [l0| | |]; cbn [bind]; auto.
  split; [|exact H2]. unfold contents. cbn [hFields hVersion hRows hHeap]. rewrite H1. f_equal. f_equal.
  rewrite <- H1, map_length. reflexivity.
Qed.

(* ------------------------------------------------------------------ *)
(** ** C52 *)
Definition no_commas (d : IpData) : Prop := Forall (fun r => Forall (no_byte x2c) (fvals r)) (dIps d).
Lemma uncomma_clean v : no_byte x2c v -> uncomma v = v.
Proof.
  intros H. unfold uncomma. induction v as [|c v IH]; [reflexivity|]. cbn [map].
  destruct (byte_eqb_spec c x2c) as [->|N]; [exfalso; apply H; now left|]. f_equal. apply IH. intros I. apply H. now right.
Qed.
Lemma hset_same h s i : hset h s i (nth i (arr h (sArr s)) []) = h.
Proof.
  unfold hset. assert (U : forall (A : Type) (l : list A) j d, upd l j (nth j l d) = l).
  { intros A l j d. destruct (Nat.ltb_spec j (length l)); [apply (upd_same' l j _ d); auto|apply upd_nil_iff; assumption]. }
  rewrite U. unfold arr. apply U.
Qed.
Lemma comma_cells_clean n : forall h s i, (forall j, i <= j < i + n -> no_byte x2c (nth j (arr h (sArr s)) [])) -> comma_cells h s i n = h.
Proof.
  induction n as [|n IH]; intros h s i H; cbn [comma_cells]; [reflexivity|].
  rewrite uncomma_clean by (apply H; lia). rewrite hset_same. apply IH. intros j J. apply H. lia.
Qed.
Lemma pack_rows_clean h rows : Forall (fun r => Forall (no_byte x2c) (view h (snd r))) rows -> fst (pack_rows h rows) = h.
Proof.
  induction rows as [|[n s] r IH]; intros H; cbn [pack_rows]; [reflexivity|]. inversion H as [|? ? H1 H2]; subst. cbn [snd] in H1.
  rewrite comma_cells_clean.
  - destruct (pack_rows h r) as [h2 rest] eqn:E. cbn [fst] in *. apply IH. assumption.
  - intros j J. rewrite Forall_forall in H1. destruct (Nat.ltb_spec j (length (arr h (sArr s)))) as [L|L].
    + apply H1. unfold view. rewrite <- (nth_firstn' _ (sLen s)) by lia. apply nth_In. rewrite firstn_length. lia.
    + rewrite nth_overflow by assumption. intros [].
Qed.
Lemma pack_clean marshal clock d : no_commas (contents d) -> snd (Plain.pack marshal clock d) = d.
Proof.
  intros H. unfold Plain.pack. pose proof (pack_rows_clean (hHeap d) (hRows d)) as P.
  destruct (pack_rows (hHeap d) (hRows d)) as [h body]. cbn [fst snd] in *. rewrite P; [destruct d; reflexivity|].
  unfold no_commas, contents in H. cbn [dIps] in H. rewrite Forall_map in H. exact H.
Qed.
Lemma PackBytes_keeps E kind d b d' : plain_columns (hFields d) -> no_commas (contents d) ->
  PackBytes (converterFormats E) kind d = Ok (b, d') -> d' = d.
Proof.
  intros HC HN. unfold PackBytes, GetPackFormat, converterFormats, init_plain, init_memip, init_ipdb, init_awdb.
  cbn [RegisterDumpFormat RegisterQueryFormat RegisterPackFormat packFormats noFormats assoc].
  destruct (bytes_eqb (str ".scan") kind).
  - intros H. pose proof (pack_clean (jVer E) (eClock E) d HN) as P. assert (Plain.pack (jVer E) (eClock E) d = (b, d')) as Q by congruence. rewrite Q in P. exact P.
  - destruct (bytes_eqb (str ".memip") kind).
    + destruct (mpack (contents d)); cbn [bind]; congruence.
    + destruct (bytes_eqb (str ".ipdb") kind); [|discriminate].
      rewrite packH_plain by assumption. destruct (Ipdb.pack _ _ _); cbn [bind]; congruence.
Qed.
(** C52: the outputs of one run of the converter are what packing the dataset alone gives
    for each of them, and the dataset is not changed. *)
Theorem C52_outputs_independent : forall E d outputs, plain_columns (hFields d) -> no_commas (contents d) ->
  (forall out d', pack_outputs (converterFormats E) outputs d = Ok (out, d') ->
     d' = d /\ Forall2 (fun o ob => fst ob = o /\ PackBytes (converterFormats E) (path_ext o) d = Ok (snd ob, d)) outputs out) /\
  ((forall o, In o outputs -> exists b, PackBytes (converterFormats E) (path_ext o) d = Ok (b, d)) ->
     exists out, pack_outputs (converterFormats E) outputs d = Ok (out, d)).
Proof.
  intros E d outputs HC HN. split.
  - induction outputs as [|o r IH]; cbn [pack_outputs]; intros out d' Q.
    + injection Q as <- <-. split; [reflexivity|constructor].
    + destruct (PackBytes (converterFormats E) (path_ext o) d) as [[b d1]| | |] eqn:P; cbn [bind] in Q; try discriminate.
      pose proof (PackBytes_keeps _ _ _ _ _ HC HN P) as ->.
      destruct (pack_outputs (converterFormats E) r d) as [[rest d2]| | |] eqn:R; cbn [bind] in Q; try discriminate.
      injection Q as <- <-. destruct (IH _ _ eq_refl) as [-> F]. split; [reflexivity|]. constructor; [auto|assumption].
  - induction outputs as [|o r IH]; cbn [pack_outputs]; intros H; [eauto|].
    destruct (H o (or_introl eq_refl)) as [b P]. rewrite P. cbn [bind].
    destruct IH as [out R]; [intros x I; apply H; now right|]. rewrite R. cbn [bind]. eauto.
Qed.
(** With a comma in some value it is not so: a text output changes what is packed after it. *)
Theorem C52_text_first_changes_the_next : forall E d o out d', legal d ->
  pack_outputs (converterFormats E) [str "a.scan"; o] d = Ok (out, d') ->
  exists d1, contents d1 = with_values (contents d) (fun r => map underscored (fvals r)) /\
    exists b1 b2, out = [(str "a.scan", b1); (o, b2)] /\ PackBytes (converterFormats E) (path_ext o) d1 = Ok (b2, d').
Proof.
  intros E d o out d' L. cbn [pack_outputs].
  change (PackBytes (converterFormats E) (path_ext (str "a.scan")) d) with (Ok (Plain.pack (jVer E) (eClock E) d)).
  pose proof (C32_pack_modifies (jVer E) (eClock E) d L) as M.
  destruct (Plain.pack (jVer E) (eClock E) d) as [b1 d1]. cbn [bind snd] in *.
  destruct (PackBytes (converterFormats E) (path_ext o) d1) as [[b2 d2]| | |] eqn:P; cbn [bind]; try discriminate.
  intros [= <- <-]. exists d1. split; [exact M|]. exists b1, b2. auto.
Qed.
Example C52_order_matters : forall E, exists b b', b <> b' /\
  PackBytes (converterFormats E) (str ".memip") demo_plain = Ok (b, demo_plain) /\
  exists t d', pack_outputs (converterFormats E) [str "a.scan"; str "b.memip"] demo_plain = Ok ([(str "a.scan", t); (str "b.memip", b')], d').
Proof.
  intros E. destruct (mpack (contents demo_plain)) as [b| | |] eqn:M; [|vm_compute in M; discriminate..].
  exists b. cbn [pack_outputs].
  change (PackBytes (converterFormats E) (path_ext (str "a.scan")) demo_plain) with (Ok (Plain.pack (jVer E) (eClock E) demo_plain)).
  unfold Plain.pack. destruct (pack_rows (hHeap demo_plain) (hRows demo_plain)) as [h body] eqn:R. cbn [bind].
  set (d1 := mkH (hFields demo_plain) (hVersion demo_plain) (hRows demo_plain) h).
  change (PackBytes (converterFormats E) (path_ext (str "b.memip")) d1) with (let* t := mpack (contents d1) in Ok (t, d1)).
  destruct (mpack (contents d1)) as [b'| | |] eqn:M'.
  - exists b'. cbn [bind]. split; [|split].
    + intros <-. vm_compute in R. injection R as <- <-. rewrite <- M in M'. vm_compute in M'. discriminate.
    + change (PackBytes (converterFormats E) (str ".memip") demo_plain) with (let* t := mpack (contents demo_plain) in Ok (t, demo_plain)). rewrite M. reflexivity.
    + eexists _, _. reflexivity.
  - exfalso. vm_compute in R. injection R as <- <-. vm_compute in M'. discriminate.
  - exfalso. vm_compute in R. injection R as <- <-. vm_compute in M'. discriminate.
  - exfalso. vm_compute in R. injection R as <- <-. vm_compute in M'. discriminate.
Qed.
(** A dataset that meets the hypotheses of C52: that of C11. *)
Example C52_case : plain_columns (hFields case_data) /\ no_commas (contents case_data) /\ legal case_data.
Proof.
  destruct C47_case as (E & L & _ & _ & P & _). split; [assumption|]. split; [|assumption]. rewrite E.
  repeat constructor; apply lit_no; reflexivity.
Qed.

(* ------------------------------------------------------------------ *)
(** ** C53 *)
(** The code of a continent's name, other texts as they are. *)
Definition has_code (v c : bytes) : Prop := In (c, v) continents \/ c = v /\ forall c', ~ In (c', v) continents.
(** f reads "continent" without regard to case but is not the common name itself. *)
Definition continent_like (f : bytes) : Prop := map ascii_lower f = str "continent" /\ f <> str "continent".
(** i is the last such column. *)
Definition last_like (fields : list bytes) (i : nat) : Prop :=
  (exists f, nth_error fields i = Some f /\ continent_like f) /\
  forall j g, i < j -> nth_error fields j = Some g -> ~ continent_like g.

Lemma cont_code_spec v : has_code v (cont_code v).
Proof.
  unfold cont_code.
  repeat match goal with |- context [bytes_eqb v ?t] => destruct (bytes_eqb_spec v t) as [->|?]; [left; cbn [continents In]; tauto|] end.
  right. split; [reflexivity|]. intros c' I. cbn [continents In] in I.
  repeat destruct I as [I|I]; try (injection I as _ I; congruence). contradiction.
Qed.
Lemma has_code_fun v c c' : has_code v c -> has_code v c' -> c = c'.
Proof.
  intros [A|[-> A]] [B|[-> B]]; try reflexivity; [|exfalso; eapply B; eassumption|exfalso; eapply A; eassumption].
  assert (G : forall p q, In p continents -> In q continents -> snd p = snd q -> fst p = fst q).
  { intros p q Ip Iq. cbn [continents In] in Ip, Iq.
    repeat destruct Ip as [<-|Ip]; try contradiction; repeat destruct Iq as [<-|Iq]; try contradiction; intros Q;
    first [reflexivity|exfalso; vm_compute in Q; discriminate]. }
  exact (G _ _ A B eq_refl).
Qed.
Lemma cont_code_idem v : cont_code (cont_code v) = cont_code v.
Proof.
  unfold cont_code at 2 3.
  repeat match goal with |- context [bytes_eqb v ?t] => destruct (bytes_eqb_spec v t) as [->|?]; [reflexivity|] end.
  unfold cont_code.
  repeat match goal with |- context [bytes_eqb v ?t] => destruct (bytes_eqb_spec v t) as [->|?]; [congruence|] end.
  reflexivity.
Qed.
Lemma covert1_like f : map lower (covert1 f) = str "continent" <-> continent_like f.
Proof.
  unfold continent_like. change (map ascii_lower f) with (map lower f). split.
  - intros H. destruct (bytes_eqb_spec f (str "continent")) as [->|N]; [vm_compute in H; discriminate|].
    split; [|assumption]. revert H. unfold covert1, CommonFieldsMap. cbn [assoc].
    repeat match goal with |- context [bytes_eqb ?n f] => destruct (bytes_eqb_spec n f) as [<-|?]; [intros Q; vm_compute in Q; discriminate|] end.
    auto.
  - intros [H N]. unfold covert1, CommonFieldsMap. cbn [assoc].
    repeat match goal with |- context [bytes_eqb ?n f] => destruct (bytes_eqb_spec n f) as [<-|?]; [first [vm_compute in H; discriminate|exfalso; apply N; reflexivity]|] end.
    assumption.
Qed.
Lemma last_continent_spec fs : forall i acc,
  match last_continent i fs acc with
  | Some k => (acc = Some k /\ forall f, In f fs -> map lower f <> str "continent") \/
              (i <= k /\ exists f, nth_error fs (k - i) = Some f /\ map lower f = str "continent" /\
               forall j g, k - i < j -> nth_error fs j = Some g -> map lower g <> str "continent")
  | None => acc = None /\ forall f, In f fs -> map lower f <> str "continent"
  end.
Proof.
  induction fs as [|f fs IH]; intros i acc; cbn [last_continent].
  - destruct acc; [left|]; split; auto; intros f [].
  - specialize (IH (S i) (if bytes_eqb (map lower f) (str "continent") then Some i else acc)).
    destruct (last_continent (S i) fs _) as [k|].
    + destruct IH as [[A B]|[L (g & G1 & G2 & G3)]].
      * destruct (bytes_eqb_spec (map lower f) (str "continent")) as [E|N].
        -- injection A as <-. right. split; [lia|]. exists f. rewrite Nat.sub_diag. split; [reflexivity|]. split; [assumption|].
           intros [|j] g J; [lia|]. cbn [nth_error]. intros Q. apply B. eapply nth_error_In; eassumption.
        -- left. split; [assumption|]. intros g [<-|I]; auto.
      * right. split; [lia|]. exists g. replace (k - i) with (S (k - S i)) by lia. cbn [nth_error]. split; [assumption|]. split; [assumption|].
        intros [|j] g' J; [lia|]. cbn [nth_error]. apply G3. lia.
    + destruct IH as [A B]. destruct (bytes_eqb_spec (map lower f) (str "continent")) as [E|N]; [discriminate|].
      split; [assumption|]. intros g [<-|I]; auto.
Qed.
Lemma pack_writer_like now ipd i : last_like (dFields ipd) i -> wCont (pack_writer now ipd) = Some i.
Proof.
  intros [(f & F & L) H]. change (wCont (pack_writer now ipd)) with (last_continent 0 (map covert1 (dFields ipd)) None).
  pose proof (last_continent_spec (map covert1 (dFields ipd)) 0 None) as S.
  assert (F' : nth_error (map covert1 (dFields ipd)) i = Some (covert1 f)) by (rewrite nth_error_map, F; reflexivity).
  destruct (last_continent 0 (map covert1 (dFields ipd)) None) as [k|].
  - destruct S as [[A _]|[_ (g & G1 & G2 & G3)]]; [discriminate|]. rewrite Nat.sub_0_r in *. f_equal.
    destruct (Nat.lt_trichotomy k i) as [Lt|[E|Lt]]; [exfalso|assumption|exfalso].
    + apply (G3 i _ Lt F'). apply covert1_like. assumption.
    + rewrite nth_error_map in G1. destruct (nth_error (dFields ipd) k) as [g0|] eqn:E; [|discriminate].
      injection G1 as <-. apply (H k g0 Lt E). apply covert1_like. assumption.
  - destruct S as [_ S]. exfalso. apply (S (covert1 f)); [eapply nth_error_In; eassumption|]. apply covert1_like. assumption.
Qed.

Section Code.
Variables (i : nat) (h0 : heap).
Definition coded (v : list bytes) : list bytes := upd v i (cont_code (nth i v [])).
Definition part (h : heap) : Prop := length h = length h0 /\ forall a, arr h a = arr h0 a \/ arr h a = coded (arr h0 a).
Lemma coded_idem v : coded (coded v) = coded v.
Proof.
  unfold coded. rewrite nth_upd, Nat.eqb_refl. cbn [andb]. destruct (Nat.ltb_spec i (length v)) as [L|L].
  - rewrite upd_upd, cont_code_idem. reflexivity.
  - rewrite !upd_nil_iff; rewrite ?upd_length; auto.
Qed.
Lemma coded_firstn v n : firstn n (coded v) = coded (firstn n v) .
Proof.
  unfold coded. rewrite firstn_upd. destruct (Nat.ltb_spec i n) as [L|L].
  - rewrite nth_firstn' by assumption. reflexivity.
  - rewrite !upd_nil_iff by (rewrite firstn_length; lia). reflexivity.
Qed.
Lemma part_view h s : part h -> view h s = view h0 s \/ view h s = coded (view h0 s).
Proof. intros [_ P]. unfold view. destruct (P (sArr s)) as [-> | ->]; [auto|right; apply coded_firstn]. Qed.
Lemma part_conv h s : part h -> conv_values (Some i) (view h s) = conv_values (Some i) (view h0 s).
Proof.
  intros P. destruct (part_view h s P) as [-> | ->]; [reflexivity|]. unfold conv_values, coded, idx. rewrite nth_error_upd.
  destruct (nth_error (view h0 s) i) as [x|] eqn:N.
  - assert (L : i < length (view h0 s)) by (apply nth_error_Some; congruence).
    rewrite Nat.eqb_refl. cbn [andb]. replace (i <? length (view h0 s)) with true by lia. cbn [bind].
    rewrite upd_upd, cont_code_idem. pose proof (nth_error_nth _ _ (@nil byte) N) as Q. unfold bytes in *. rewrite Q. reflexivity.
  - assert (L : length (view h0 s) <= i) by (apply nth_error_None; assumption).
    rewrite Nat.eqb_refl. cbn [andb]. replace (i <? length (view h0 s)) with false by lia. try rewrite N. reflexivity.
Qed.
Lemma part_step h s : part h -> i < length (view h s) ->
  part (hset h s i (cont_code (nth i (view h s) []))) /\
  arr (hset h s i (cont_code (nth i (view h s) []))) (sArr s) = coded (arr h0 (sArr s)) /\
  forall a, arr h a = coded (arr h0 a) -> arr (hset h s i (cont_code (nth i (view h s) []))) a = coded (arr h0 a).
Proof.
  intros [P1 P2] L.
  assert (E : arr (hset h s i (cont_code (nth i (view h s) []))) (sArr s) = coded (arr h (sArr s))).
  { rewrite arr_hset, Nat.eqb_refl. unfold coded. unfold view in *. rewrite firstn_length in L. rewrite nth_firstn' by lia. reflexivity. }
  assert (E2 : coded (arr h (sArr s)) = coded (arr h0 (sArr s))).
  { destruct (P2 (sArr s)) as [-> | ->]; [reflexivity|apply coded_idem]. }
  split; [|split].
  - split; [rewrite hset_length; assumption|]. intros a. destruct (Nat.eq_dec a (sArr s)) as [->|N]; [right; congruence|].
    rewrite arr_hset. destruct (Nat.eqb_spec a (sArr s)); [contradiction|]. apply P2.
  - congruence.
  - intros a A. destruct (Nat.eq_dec a (sArr s)) as [->|N]; [congruence|].
    rewrite arr_hset. destruct (Nat.eqb_spec a (sArr s)); [contradiction|]. assumption.
Qed.
(** One row: the error decides about the conversion. *)
Lemma insert_cont w n v w' err : insert w n v = Ok (w', err) -> wCont w = Some i ->
  wCont w' = Some i /\ match err with Some _ => converts w n = Ok false | None => converts w n = Ok true /\ i < length v end.
Proof.
  unfold insert, converts. destruct (mask_size (nMask n)) as [mask sz].
  destruct (Nodes (wNode w) (nIP n) mask) as [[[[nodes node] bit] ok]| | |]; cbn [bind]; try discriminate.
  destruct ok; cbn [negb bind].
  - destruct (nget nodes node bit) as [e| | |]; cbn [bind]; try discriminate.
    destruct (0 <? e)%Z; cbn [bind negb].
    + intros [= <- <-] C. cbn [wCont]. auto.
    + cbn [wCont]. intros Q C. rewrite C in Q. unfold conv_values, idx in Q. destruct (nth_error v i) as [x|] eqn:N; cbn [bind] in Q; [|discriminate].
      destruct (Fields _ _ _) as [[hh cc] off]. destruct (nset nodes node bit (- off)); cbn [bind] in Q; try discriminate.
      injection Q as <- <-. cbn [wCont]. split; [reflexivity|]. split; [reflexivity|]. apply nth_error_Some. congruence.
  - intros [= <- <-] C. cbn [wCont]. auto.
Qed.
Lemma insert_same w n v v' : conv_values (wCont w) v = conv_values (wCont w) v' -> insert w n v = insert w n v'.
Proof.
  intros H. unfold insert. destruct (mask_size (nMask n)) as [mask sz].
  destruct (Nodes (wNode w) (nIP n) mask) as [[[[nodes node] bit] ok]| | |]; cbn [bind]; try reflexivity.
  cbn [wCont]. rewrite H. reflexivity.
Qed.
Definition raw0 (r : hrow) : IpRaw := mkRaw (fst r) (view h0 (snd r)).
Lemma insert_allH_code rows : forall w h, wCont w = Some i -> part h ->
  exists h', part h' /\ insert_allH w h rows = (let* w' := insert_all w (map raw0 rows) in Ok (w', h')) /\
    (forall a, arr h a = coded (arr h0 a) -> arr h' a = coded (arr h0 a)).
Proof.
  induction rows as [|[n s] r IH]; intros w h C P; cbn [insert_allH insert_all map raw0 fst snd cidr fvals].
  - exists h. split; [assumption|]. split; [reflexivity|auto].
  - rewrite <- (insert_same w n (view h s) (view h0 s)) by (rewrite C; apply part_conv; assumption).
    destruct (insert w n (view h s)) as [[w1 err]| | |] eqn:E; cbn [bind].
    + destruct (insert_cont w n _ _ _ E C) as [C1 K]. rewrite C. destruct err as [e|].
      * rewrite K. cbn [bind]. apply (IH w1 h C1 P).
      * destruct K as [-> L]. cbn [bind]. destruct (part_step h s P L) as (P1 & _ & P3).
        destruct (IH w1 _ C1 P1) as (h' & Ph & Eh & Kh). exists h'. split; [assumption|]. split; [exact Eh|]. auto.
    + exists h. split; [assumption|]. split; [|auto]. unfold converts, insert in *. destruct (mask_size (nMask n)) as [mask sz].
      destruct (Nodes (wNode w) (nIP n) mask) as [[[[nodes node] bit] ok]| | |]; cbn [bind] in *; try congruence.
      destruct ok; cbn [negb bind] in *; [|congruence]. destruct (nget nodes node bit); cbn [bind] in *; congruence.
    + exists h. split; [assumption|]. split; [|auto]. unfold converts, insert in *. destruct (mask_size (nMask n)) as [mask sz].
      destruct (Nodes (wNode w) (nIP n) mask) as [[[[nodes node] bit] ok]| | |]; cbn [bind] in *; try congruence.
      destruct ok; cbn [negb bind] in *; [|congruence]. destruct (nget nodes node bit); cbn [bind] in *; congruence.
    + exists h. split; [assumption|]. split; [|auto]. unfold converts, insert in *. destruct (mask_size (nMask n)) as [mask sz].
      destruct (Nodes (wNode w) (nIP n) mask) as [[[[nodes node] bit] ok]| | |]; cbn [bind] in *; try congruence.
      destruct ok; cbn [negb bind] in *; [|congruence]. destruct (nget nodes node bit); cbn [bind] in *; congruence.
Qed.
Lemma insert_all_same rows : forall w h, wCont w = Some i -> part h ->
  insert_all w (map (fun r => mkRaw (fst r) (view h (snd r))) rows) = insert_all w (map raw0 rows).
Proof.
  induction rows as [|[n s] r IH]; intros w h C P; cbn [insert_all map raw0 fst snd cidr fvals]; [reflexivity|].
  rewrite (insert_same w n (view h s) (view h0 s)) by (rewrite C; apply part_conv; assumption).
  destruct (insert w n (view h0 s)) as [[w1 err]| | |] eqn:E; cbn [bind]; try reflexivity.
  apply IH; [eapply insert_cont; eassumption|assumption].
Qed.
Lemma disjoint_head b bs : disjoint (b :: bs) -> disjoint bs /\ forall c, In c bs -> forall a, ~ (in_block b a /\ in_block c a).
Proof.
  intros D. split.
  - intros j k x y N Hj Hk. apply (D (S j) (S k)); [lia|assumption..].
  - intros c I a. apply In_nth_error in I as [k Hk]. apply (D 0 (S k)); [lia|reflexivity|assumption].
Qed.
Lemma insert_allH_all rows : forall bs w P m h, Forall2 net_ok (map raw0 rows) bs -> winv w P m ->
  (forall e b, In e m -> In b bs -> forall a, ~ (in_block (fst e) a /\ in_block b a)) -> disjoint bs ->
  Forall (fun r => i < length (view h0 (snd r))) rows -> wCont w = Some i -> part h ->
  exists w' h', insert_allH w h rows = Ok (w', h') /\ part h' /\
    (forall a, arr h a = coded (arr h0 a) -> arr h' a = coded (arr h0 a)) /\
    Forall (fun r => arr h' (sArr (snd r)) = coded (arr h0 (sArr (snd r)))) rows.
Proof.
  induction rows as [|[n s] r IH]; intros bs w P m h HR HW HM HD HL C Ph.
  - exists w, h. split; [reflexivity|]. split; [assumption|]. split; [auto|constructor].
  - cbn [map raw0] in HR. inversion HR as [|? b ? bs' Hr HR' Q1 Q2]; subst. inversion HL as [|? ? Hl HL' Q3]; subst. cbn [fst snd] in *.
    destruct (disjoint_head _ _ HD) as [HD' HB]. clear HR HL HD.
    cbn [insert_allH].
    rewrite (insert_same w n (view h s) (view h0 s)) by (rewrite C; apply part_conv; assumption).
    assert (CV : exists cv, conv_values (wCont w) (view h0 s) = Ok cv).
    { rewrite C. unfold conv_values, idx. destruct (nth_error (view h0 s) i) eqn:N; [cbn [bind]; eauto|]. apply nth_error_None in N. lia. }
    destruct CV as [cv CV]. destruct Hr as [N1 N2 N3]. cbn [cidr] in N1.
    destruct (insert_spec w P m n b (view h0 s) cv HW N1 N2 N3 CV) as [w1 [err [P1 [E1 [W1 [M1 [C1 [H1 _]]]]]]]].
    assert (In b (b :: bs')) as Ib by now left.
    assert (err = None) as ->.
    { destruct H1 as [[_ (e & I & X)]|[[_ (e & I & X)]|[Q _]]]; [exfalso|exfalso|assumption];
      unfold strictly_inside in X; apply andb_true_iff in X as [_ X]; apply in_blockb_iff in X.
      - apply (HM e b I Ib (base b)). split; [assumption|apply in_block_base].
      - apply (HM e b I Ib (base (fst e))). split; [apply in_block_base|assumption]. }
    destruct (insert_cont w n _ _ _ E1 C) as [C2 [K _]]. rewrite K, E1, C. cbn [bind].
    assert (L : i < length (view h s)).
    { destruct (part_view h s Ph) as [-> | ->]; [assumption|]. unfold coded. rewrite upd_length. assumption. }
    destruct (part_step h s Ph L) as (Q1 & Q2 & Q3).
    destruct (IH bs' w1 P1 _ (hset h s i (cont_code (nth i (view h s) []))) HR' W1) as (w' & h' & E' & Ph' & K1 & K2); try assumption.
    { intros e c I Ic a. apply store_in in I as [I| ->]; [apply HM; [assumption|now right]|]. cbn [fst]. apply HB. assumption. }
    exists w', h'. split; [assumption|]. split; [assumption|]. split; [auto|]. constructor; [|assumption]. cbn [snd]. auto.
Qed.
End Code.

(** Without such a column the packer leaves the dataset alone. *)
Theorem C53_unchanged : forall E d b d', plain_columns (hFields d) ->
  PackBytes (converterFormats E) (str ".ipdb") d = Ok (b, d') -> d' = d.
Proof.
  intros E d b d' HC. change (PackBytes (converterFormats E) (str ".ipdb") d) with (packH (jMeta E) (eNow E) d).
  rewrite packH_plain by assumption. destruct (Ipdb.pack _ _ _); cbn [bind]; congruence.
Qed.
Lemma coded_with_col i v : i < length v -> coded i v = with_col v i (cont_code (nth i v [])).
Proof. apply upd_with_col. Qed.
(** With such a column every row keeps its values or has the continent's code there. *)
Theorem C53_only_codes : forall E d i b d', legal d -> last_like (hFields d) i ->
  PackBytes (converterFormats E) (str ".ipdb") d = Ok (b, d') ->
  hFields d' = hFields d /\ hVersion d' = hVersion d /\
  Forall2 (fun r r' => cidr r' = cidr r /\
      (fvals r' = fvals r \/ exists c, has_code (nth i (fvals r) []) c /\ fvals r' = with_col (fvals r) i c))
    (dIps (contents d)) (dIps (contents d')).
Proof.
  intros E d i b d' L HL. change (PackBytes (converterFormats E) (str ".ipdb") d) with (packH (jMeta E) (eNow E) d).
  unfold packH. destruct (insert_allH_code i (hHeap d) (hRows d) (pack_writer (eNow E) (contents d)) (hHeap d)) as (h' & P & Q & _).
  { apply pack_writer_like. exact HL. } { split; auto. }
  rewrite Q. destruct (insert_all _ _) as [w| | |]; cbn [bind]; try discriminate. intros [= _ <-].
  split; [reflexivity|]. split; [reflexivity|]. unfold contents. cbn [dIps hRows hHeap]. clear Q.
  unfold legal in L. induction (hRows d) as [|[n s] r IH]; cbn [map]; constructor.
  - cbn [cidr fvals fst snd]. split; [reflexivity|]. destruct (part_view i (hHeap d) h' s P) as [-> | ->]; [auto|].
    destruct (Nat.ltb_spec i (length (view (hHeap d) s))) as [Li|Li].
    + right. exists (cont_code (nth i (view (hHeap d) s) [])). split; [apply cont_code_spec|]. apply coded_with_col. assumption.
    + left. apply upd_nil_iff. assumption.
  - inversion L; subst. apply IH. assumption.
Qed.
(** When no two networks overlap every row gets the code. *)
Theorem C53_all_rows : forall E d i bs, legal d -> last_like (hFields d) i ->
  Forall2 net_ok (dIps (contents d)) bs -> disjoint bs ->
  Forall (fun r => i < length (fvals r)) (dIps (contents d)) ->
  exists b d', PackBytes (converterFormats E) (str ".ipdb") d = Ok (b, d') /\
    hFields d' = hFields d /\ hVersion d' = hVersion d /\
    Forall2 (fun r r' => cidr r' = cidr r /\ exists c, has_code (nth i (fvals r) []) c /\ fvals r' = with_col (fvals r) i c)
      (dIps (contents d)) (dIps (contents d')).
Proof.
  intros E d i bs L HL HR HD HF. change (PackBytes (converterFormats E) (str ".ipdb") d) with (packH (jMeta E) (eNow E) d).
  unfold packH. destruct (insert_allH_all i (hHeap d) (hRows d) bs (pack_writer (eNow E) (contents d)) [[]] [] (hHeap d)) as (w & h' & Q & P & _ & K); try assumption.
  { exact (winv_init _ _). }
  { intros e c []. }
  { unfold contents in HF. cbn [dIps] in HF. rewrite Forall_map in HF. exact HF. }
  { apply pack_writer_like. exact HL. } { split; auto. }
  rewrite Q. cbn [bind]. eexists _, _. split; [reflexivity|]. split; [reflexivity|]. split; [reflexivity|].
  unfold contents in *. cbn [dIps hRows hHeap] in *. clear Q HR HD.
  induction (hRows d) as [|[n s] r IH]; cbn [map] in *; constructor.
  - cbn [cidr fvals fst snd]. split; [reflexivity|]. inversion HF as [|? ? H1 H2]; subst. inversion K as [|? ? K1 K2]; subst. cbn [fvals snd] in *.
    exists (cont_code (nth i (view (hHeap d) s) [])). split; [apply cont_code_spec|]. rewrite <- coded_with_col by assumption.
    unfold view. rewrite K1. apply coded_firstn.
  - inversion HF; inversion K; subst. apply IH; assumption.
Qed.
(** Packing the changed dataset again gives the same file. *)
Theorem C53_again : forall E d i b d', last_like (hFields d) i ->
  PackBytes (converterFormats E) (str ".ipdb") d = Ok (b, d') ->
  exists d'', PackBytes (converterFormats E) (str ".ipdb") d' = Ok (b, d'').
Proof.
  intros E d i b d' HL. change (PackBytes (converterFormats E) (str ".ipdb")) with (packH (jMeta E) (eNow E)).
  unfold packH at 1. assert (C : wCont (pack_writer (eNow E) (contents d)) = Some i) by (apply pack_writer_like; exact HL).
  destruct (insert_allH_code i (hHeap d) (hRows d) (pack_writer (eNow E) (contents d)) (hHeap d)) as (h' & P & Q & _); [exact C|split; auto|].
  rewrite Q. clear Q. destruct (insert_all (pack_writer (eNow E) (contents d)) (map (raw0 (hHeap d)) (hRows d))) as [w| | |] eqn:W; cbn [bind]; try discriminate.
  intros [= <- <-]. unfold packH. cbn [hRows hHeap].
  change (pack_writer (eNow E) (contents (mkH (hFields d) (hVersion d) (hRows d) h'))) with (pack_writer (eNow E) (contents d)).
  destruct (insert_allH_code i h' (hRows d) (pack_writer (eNow E) (contents d)) h') as (h2 & P2 & Q2 & _); [exact C|split; auto|].
  rewrite Q2. unfold raw0. rewrite (insert_all_same i (hHeap d)) by assumption. rewrite W. cbn [bind]. eauto.
Qed.
(** A case: a column "Continent" in a dataset with two disjoint rows. *)
Definition case_like_data : IpData :=
  (mkData [str "country"; str "Continent"] (mkVersion 1 2 0 (str "v1") [] [])
     [ mkRaw (mkNet [x01; x00; x00; x00] [xff; xff; xff; x00]) [str "CN"; str "亚洲"];
       mkRaw (mkNet [x02; x00; x00; x00] [xff; xff; xff; x00]) [str "DE"; str "欧洲"] ]).
Definition case_like : HData := fresh (fun _ => 0) case_like_data.
Example C53_case : legal case_like /\ last_like (hFields case_like) 1 /\
  (exists bs, Forall2 net_ok (dIps (contents case_like)) bs /\ disjoint bs) /\
  Forall (fun r => 1 < length (fvals r)) (dIps (contents case_like)) /\
  map fvals (dIps (contents case_like)) = [[str "CN"; str "亚洲"]; [str "DE"; str "欧洲"]] /\
  has_code (str "亚洲") (str "AS").
Proof.
  assert (contents case_like = case_like_data) as EC by apply fresh_spec.
  split; [apply fresh_spec|]. split; [|split; [|split; [|split]]].
  - split; [exists (str "Continent"); split; [reflexivity|split; [reflexivity|discriminate]]|].
    intros [|[|j]] g J Hg; try lia. destruct j; discriminate Hg.
  - exists [mkBlock (v4base + 0x01000000) 8; mkBlock (v4base + 0x02000000) 8]. split.
    + rewrite EC. unfold case_like_data. cbn [dIps].
      constructor; [|constructor; [|constructor]]; (constructor;
        [ constructor; [left; reflexivity|reflexivity|vm_compute; discriminate|vm_compute; reflexivity|vm_compute; reflexivity]
        | vm_compute; reflexivity | vm_compute; reflexivity ]).
    + intros i j b c N Hi Hj a [A B].
      destruct i as [|[|i]]; destruct j as [|[|j]]; cbn in Hi, Hj; try congruence; try (destruct i; discriminate); try (destruct j; discriminate);
      injection Hi as <-; injection Hj as <-; unfold in_block in *; cbn [base logsz] in *;
      change (v4base + 16777216)%N with 281470698520576%N in *; change (v4base + 33554432)%N with 281470715297792%N in *; change (2 ^ 8)%N with 256%N in *; flia.
  - rewrite EC. repeat constructor.
  - rewrite EC. reflexivity.
  - left. left. reflexivity.
Qed.
Print Assumptions C52_outputs_independent.
Print Assumptions C53_all_rows.
Print Assumptions C53_again.

(** Property theorems C44 and C59, further parts (found missing by mutation testing). *)
From Verif Require Import Base NetIP IpNet Spec IpNetProofs SplitProofs IpNetProofs2 Inf Ipdb SpecIpdb SpecExport Export ExportProofs BuildProofs Bits.
From Verif Require Import TrieProofs WriterProofs ReaderProofs OpenProofs PackProofs PropsIpdb DumpProofs PropsExport PropsDump.
From Verif Require Import Foreign Json JsonProofs PropsJson.
From Verif Require Import Tables Operate SpecOperate OperateProofs OperateProofs2 PropsOperate PropsOperate2 NetText NetTextProofs Plain SpecText PlainProofs PropsPlain Memip AwDecode AwTree Facade PropsFacade PropsFacade2 PropsFacade3 ConvertProofs ConvertProofs2 FastOpen PropsConvert PropsConvert2 Convert PropsConvert3 PropsConvert4.
Open Scope nat_scope.

(* ---------- Java: the errors of a query ---------- *)
(** C44: whatever the file, the Java query reports only that a family is not supported, that
    the address is malformed or that a record is outside the file; it never says that there is
    no data for an address. *)
Definition only_errs {A} (es : list error) (x : res A) : Prop := forall e, x = Err e -> In e es.
Lemma only_bind {A B} es (x : res A) (f : A -> res B) : only_errs es x -> (forall a, only_errs es (f a)) -> only_errs es (bind x f).
Proof. intros H G e. destruct x as [a|e'| |]; cbn [bind]; try discriminate; [apply G|]. intros E. apply H. congruence. Qed.
Lemma only_ne {A} es (x : res A) : not_err x -> only_errs es x.
Proof. intros H e E. destruct (H e E). Qed.
Lemma only_err {A} es e : In e es -> only_errs es (@Err A e).
Proof. intros I e' E. injection E as <-. exact I. Qed.
Definition java_errors : list error := [ErrNoSupportIPv6; ErrNoSupportIPv4; ErrIPFormat; ErrDatabaseError].
Lemma zidx_ne (d : bytes) i : not_err (zidx d i).
Proof. unfold zidx. destruct (_ <? _)%Z; [ne|]. apply idx_not_err. Qed.
Lemma zslice_ne (d : bytes) a b : not_err (zslice d a b).
Proof. unfold zslice, slice. repeat match goal with |- context [if ?x then _ else _] => destruct x end; ne. Qed.
Lemma j_build_ne parts fields : forall i info, not_err (j_build parts i fields info).
Proof.
  induction parts as [|v parts IH]; intros i info; [ne|]. cbn [j_build]. apply not_err_bind; [apply idx_not_err|]. intros f.
  apply not_err_bind; [|intros a; apply IH]. destruct info. unfold j_set.
  repeat match goal with |- context [if ?x then _ else _] => destruct x end; try ne.
  apply not_err_bind; [|ne]. destruct v; ne.
Qed.
Theorem C44_errors : forall lossy q ip, only_errs java_errors (j_query lossy q ip).
Proof.
  intros lossy [r c] ip. unfold j_query. cbn [fst snd]. apply only_bind; [|intros [n i]; apply only_ne; ne]. unfold j_query0.
  apply only_bind.
  - unfold j_find0.
    destruct (length ip =? 16); [destruct (HasIPv6 _)|destruct (length ip =? 4); [destruct (HasIPv4 _)|]];
      try (apply only_err; cbn; tauto);
      (destruct (find_node12 _ _ _ _ _); apply only_ne; ne).
  - intros node. cbn [fst snd]. destruct c as [c|]; [destruct (jget node c); [apply only_ne; ne|]|].
    all: apply only_bind; [|intros [parts|]; [apply only_ne, not_err_bind; [apply j_build_ne|ne]|apply only_err; cbn; tauto]].
    all: unfold j_resolve; destruct (assoc _ _) as [off|]; [|apply only_ne; ne].
    all: destruct (_ <=? _)%Z; [apply only_err; cbn; tauto|].
    all: apply only_bind; [apply only_ne, zidx_ne|]; intros a; apply only_bind; [apply only_ne, zidx_ne|]; intros b.
    all: destruct (_ <? _)%Z; [apply only_err; cbn; tauto|].
    all: apply only_bind; [apply only_ne, zslice_ne|]; intros s; apply only_bind; [|intros p; apply only_ne; ne].
    all: apply only_ne; unfold copyOfRange; repeat match goal with |- context [if ?x then _ else _] => destruct x end; ne.
Qed.
Print Assumptions C44_errors.
Example C44_errors_exclude : ~ In ErrDataNotExists java_errors.
Proof. cbn. intuition discriminate. Qed.

(* ---------- the converter: outputs one after the other ---------- *)
Lemma pack_legal marshal clock d : legal d -> legal (snd (Plain.pack marshal clock d)).
Proof.
  intros L. unfold Plain.pack. pose proof (pack_rows_spec (hHeap d) (hRows d) (hHeap d) (half_refl _) L) as H.
  destruct (Plain.pack_rows (hHeap d) (hRows d)) as [h2 body]. destruct H as [H _]. unfold legal in *. cbn [snd hRows hHeap].
  eapply Forall_impl; [|exact L]. intros r Hr. exact (half_legal _ _ _ H Hr).
Qed.
Definition is_scan (o : bytes) : Prop := path_ext o = str ".scan".
(** The dataset as a text output leaves it. *)
Definition scanned (d : IpData) : IpData := with_values d (fun r => map underscored (fvals r)).
Lemma scanned_idem d : scanned (scanned d) = scanned d.
Proof.
  unfold scanned, with_values. cbn [dFields dVersion dIps]. f_equal. rewrite map_map. apply map_ext. intros r. cbn [cidr fvals]. f_equal.
  rewrite map_map. apply map_ext. intros v. apply uncomma_idem.
Qed.
Lemma PackBytes_next E o d b d' : legal d -> plain_columns (hFields d) -> PackBytes (converterFormats E) (path_ext o) d = Ok (b, d') ->
  legal d' /\ hFields d' = hFields d /\ (is_scan o -> contents d' = scanned (contents d)) /\ (~ is_scan o -> d' = d).
Proof.
  intros L HC. unfold PackBytes, GetPackFormat, converterFormats, init_plain, init_memip, init_ipdb, init_awdb.
  cbn [RegisterDumpFormat RegisterQueryFormat RegisterPackFormat packFormats noFormats assoc].
  unfold is_scan. destruct (bytes_eqb_spec (str ".scan") (path_ext o)) as [Es|Ns].
  - intros H. assert (Plain.pack (jVer E) (eClock E) d = (b, d')) as Q by congruence.
    pose proof (pack_legal (jVer E) (eClock E) d L) as PL. pose proof (C32_pack_modifies (jVer E) (eClock E) d L) as PM. rewrite Q in PL, PM. cbn [snd] in *.
    split; [assumption|]. split; [|split; [intros _; exact PM|congruence]].
    apply (f_equal dFields) in PM. exact PM.
  - assert (forall X : HData, X = d -> legal X /\ hFields X = hFields d /\ (path_ext o = str ".scan" -> contents X = scanned (contents d)) /\ (path_ext o <> str ".scan" -> X = d)) as K.
    { intros X ->. split; [assumption|]. split; [reflexivity|]. split; [congruence|reflexivity]. }
    destruct (bytes_eqb (str ".memip") (path_ext o)).
    + destruct (mpack (contents d)) as [t| | |]; cbn [bind]; try discriminate. intros H. apply K. congruence.
    + destruct (bytes_eqb (str ".ipdb") (path_ext o)); [|discriminate]. rewrite packH_plain by assumption.
      destruct (Ipdb.pack _ _ _) as [t| | |]; cbn [bind]; try discriminate. intros H. apply K. congruence.
Qed.
Lemma write_keeps E can outputs : forall fs d fs', write_outputs E can outputs fs d = Ok (fs', None) -> forall p, ~ In p outputs -> fs' p = fs p.
Proof. intros fs d fs' H. apply (write_spec _ _ _ _ _ _ _ H). Qed.
Lemma write_order E can outputs : forall fs d fs' before o after, write_outputs E can outputs fs d = Ok (fs', None) -> NoDup outputs ->
  legal d -> plain_columns (hFields d) -> outputs = before ++ o :: after ->
  exists b d1 d2, fs' o = Some b /\ PackBytes (converterFormats E) (path_ext o) d1 = Ok (b, d2) /\
    (Exists is_scan before -> contents d1 = scanned (contents d)) /\ (~ Exists is_scan before -> d1 = d).
Proof.
  induction outputs as [|x outputs IH]; intros fs d fs' before o after H ND L HC E0; [destruct before; discriminate|].
  cbn [write_outputs] in H. unfold PackFile in H. destruct (can x); cbn [negb bind] in H; [|discriminate].
  destruct (PackBytes (converterFormats E) (path_ext x) d) as [[b d']|e| |] eqn:P; cbn [bind] in H; try discriminate H.
  inversion ND as [|? ? Nx ND']; subst. destruct before as [|y before]; cbn [app] in E0; injection E0 as Ex Eo.
  - subst x outputs. exists b, d, d'. split.
    { rewrite (write_keeps _ _ _ _ _ _ H) by assumption. unfold set_file. rewrite bytes_eqb_refl. reflexivity. }
    split; [assumption|]. split; [intros Q; inversion Q|reflexivity].
  - subst y. destruct (PackBytes_next E x d b d' L HC P) as (L' & F' & S1 & S2).
    destruct (IH _ _ _ before o after H ND' L' ltac:(rewrite F'; assumption) Eo) as (b2 & d1 & d2 & A & B & C1 & C2).
    exists b2, d1, d2. split; [assumption|]. split; [assumption|].
    assert (is_scan x \/ ~ is_scan x) as Dx by (unfold is_scan; destruct (bytes_eqb_spec (path_ext x) (str ".scan")); auto).
    assert (Exists is_scan before \/ ~ Exists is_scan before) as Db.
    { destruct (Exists_dec is_scan before) as [|]; auto. intros z. unfold is_scan. destruct (bytes_eqb_spec (path_ext z) (str ".scan")); [left|right]; assumption. }
    split.
    + intros Q. destruct Dx as [Dx|Dx].
      * destruct Db as [Db|Db]; [rewrite (C1 Db), (S1 Dx); apply scanned_idem|rewrite (C2 Db); auto].
      * inversion Q as [? ? Q0|? ? Q0]; subst; [contradiction|]. rewrite (C1 Q0), (S2 Dx). reflexivity.
    + intros Q. rewrite C2 by (intros Z; apply Q; right; assumption). apply S2. intros Z. apply Q. left. assumption.
Qed.
(** C59: the outputs are written in the order they are given.  An output holds the dataset of
    the run, or, when a text output comes before it, that dataset with every comma in a value
    replaced. *)
Theorem C59_in_order : forall E ipList order grow can fs input output rule line replace fs',
  converterMain E ipList order grow can fs input output rule line replace = Ok (fs', None) -> NoDup (split x2c output) ->
  exists d, run_data E ipList order grow fs input rule line replace d /\
    (legal d -> plain_columns (hFields d) -> forall before o after, split x2c output = before ++ o :: after ->
     exists b d1 d2, fs' o = Some b /\ PackBytes (converterFormats E) (path_ext o) d1 = Ok (b, d2) /\
       (Exists is_scan before -> contents d1 = scanned (contents d)) /\ (~ Exists is_scan before -> d1 = d)).
Proof.
  intros E il order grow can fs input output rule line replace fs' H ND.
  destruct (run_cases _ _ _ _ _ _ _ _ _ _ _ _ _ H) as [(_ & [e Q] & _)|(d & R & W)]; [discriminate Q|].
  exists d. split; [assumption|]. intros L HC before o after Eo. exact (write_order _ _ _ _ _ _ _ _ _ W ND L HC Eo).
Qed.
Print Assumptions C59_in_order.
(** A case: two rows, one value with a comma; the memip text after a scan text differs. *)
Example C59_order_case :
  legal demo_plain /\
  exists fs1 fs2, write_outputs case_env (fun _ => true) [str "a.scan"; str "b.memip"] (fun _ => None) demo_plain = Ok (fs1, None) /\
    write_outputs case_env (fun _ => true) [str "b.memip"; str "a.scan"] (fun _ => None) demo_plain = Ok (fs2, None) /\
    fs1 (str "b.memip") <> fs2 (str "b.memip") /\ fs1 (str "a.scan") = fs2 (str "a.scan").
Proof.
  split; [repeat constructor; cbn; lia|].
  eexists _, _. split; [vm_compute; reflexivity|]. split; [vm_compute; reflexivity|]. split; vm_compute; [discriminate|reflexivity].
Qed.

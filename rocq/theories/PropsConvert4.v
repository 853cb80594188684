(** Property theorems C59: one run of the converter and the files. *)
From Verif Require Import Base NetIP IpNet Spec IpNetProofs SplitProofs IpNetProofs2 Inf Ipdb SpecIpdb SpecExport Export ExportProofs BuildProofs Bits.
From Verif Require Import TrieProofs WriterProofs ReaderProofs OpenProofs PackProofs PropsIpdb DumpProofs PropsExport PropsDump.
From Verif Require Import Json JsonProofs PropsJson.
From Verif Require Import Tables Operate SpecOperate OperateProofs OperateProofs2 PropsOperate PropsOperate2 NetText NetTextProofs Plain SpecText PlainProofs PropsPlain Memip AwDecode AwTree Facade PropsFacade PropsFacade2 PropsFacade3 ConvertProofs ConvertProofs2 FastOpen PropsConvert PropsConvert2 Convert PropsConvert3.
Open Scope nat_scope.

(* ---------- packing fails only for other extensions ---------- *)
Definition not_err {A} (x : res A) : Prop := forall e, x <> Err e.
Lemma not_err_bind {A B} (x : res A) (f : A -> res B) : not_err x -> (forall a, not_err (f a)) -> not_err (bind x f).
Proof. intros H G e. destruct x as [a|e'| |]; cbn [bind]; [apply G|intros _; apply (H e'); reflexivity|discriminate|discriminate]. Qed.
Lemma idx_not_err {A} (l : list A) i : not_err (idx l i).
Proof. unfold idx. intros e. destruct (nth_error l i); discriminate. Qed.
Ltac ne := unfold not_err; intros; discriminate.
Lemma LastIP_ne n : not_err (LastIP n).
Proof. unfold LastIP. destruct (_ <? _); ne. Qed.
Lemma NewRange_ne n : not_err (NewRange n).
Proof. apply not_err_bind; [apply LastIP_ne|ne]. Qed.
Lemma JoinIPNet_ne r n : not_err (JoinIPNet r n).
Proof. unfold JoinIPNet. destruct (_ || _); [ne|]. apply not_err_bind; [apply LastIP_ne|]. intros l. destruct (negb _); ne. Qed.
Lemma covertValues_ne offs v : not_err (covertValues offs v).
Proof.
  unfold covertValues. generalize 0 as i, (repeat (@nil byte) 6) as nw. induction offs as [|o offs IH]; intros i nw; [ne|]. cbn [covert_loop].
  apply not_err_bind; [destruct o; [apply not_err_bind; [apply idx_not_err|ne]|ne]|]. intros a. apply IH.
Qed.
Lemma mem_merge_ne offs rows : forall r f, not_err (mem_merge offs r f rows).
Proof.
  induction rows as [|row rows IH]; intros r f; [ne|]. cbn [mem_merge]. apply not_err_bind; [apply covertValues_ne|]. intros v.
  assert (not_err (let* r2 := NewRange (cidr row) in let* out := mem_merge offs r2 v rows in Ok ((r, f) :: out))) as Fr.
  { apply not_err_bind; [apply NewRange_ne|]. intros r2. apply not_err_bind; [apply IH|ne]. }
  destruct (strs_eqb _ _); [|exact Fr]. apply not_err_bind; [apply JoinIPNet_ne|]. intros [ok r2]. destruct ok; [apply IH|exact Fr].
Qed.
Lemma to4_ne ip : not_err (IPv4ToUint32 ip).
Proof. unfold IPv4ToUint32. destruct (to4 ip) as [|a [|b [|c [|d [|x l]]]]]; ne. Qed.
Lemma mem_lines_ne v4 l : not_err (mem_lines v4 l).
Proof.
  induction l as [|x l IH]; [ne|]. cbn [mem_lines]. apply not_err_bind; [|intros a; apply not_err_bind; [exact IH|ne]].
  unfold mem_line. destruct v4; [|ne]. apply not_err_bind; [apply to4_ne|]. intros s. apply not_err_bind; [apply to4_ne|ne].
Qed.
Lemma mpack_ne d : not_err (mpack d).
Proof.
  unfold mpack. destruct (dIps d) as [|row rest]; [ne|]. apply not_err_bind; [apply covertValues_ne|]. intros v.
  apply not_err_bind; [apply NewRange_ne|]. intros r. apply not_err_bind; [apply mem_merge_ne|]. intros l. apply mem_lines_ne.
Qed.
Lemma nget_ne nodes i b : not_err (nget nodes i b).
Proof. apply not_err_bind; [apply idx_not_err|ne]. Qed.
Lemma nset_ne nodes i b v : not_err (nset nodes i b v).
Proof. apply not_err_bind; [apply idx_not_err|ne]. Qed.
Lemma ip_bit_ne ip i : not_err (ip_bit ip i).
Proof. apply not_err_bind; [apply idx_not_err|ne]. Qed.
Lemma nodes_loop_ne cnt : forall i ip nodes node bit, not_err (nodes_loop cnt i ip nodes node bit).
Proof.
  induction cnt as [|k IH]; intros; [ne|]. cbn [nodes_loop]. apply not_err_bind; [apply ip_bit_ne|]. intros b.
  apply not_err_bind; [apply nget_ne|]. intros e. apply not_err_bind; [destruct (e =? 0)%Z; [apply nset_ne|ne]|]. intros nodes'.
  apply not_err_bind; [apply nget_ne|]. intros e'. destruct (e' <? 0)%Z; [ne|apply IH].
Qed.
Lemma Nodes_ne nodes ip mask : not_err (Nodes nodes ip mask).
Proof.
  unfold Nodes. destruct (_ <? 0)%Z; [ne|]. apply not_err_bind; [apply nodes_loop_ne|]. intros [[[n i] b] ok]. destruct ok; [|ne].
  apply not_err_bind; [apply ip_bit_ne|ne].
Qed.
Lemma insert_ne w n v : not_err (insert w n v).
Proof.
  unfold insert. destruct (mask_size _) as [mask bits]. apply not_err_bind; [apply Nodes_ne|]. intros [[[ns i] b] ok].
  destruct (negb ok); [ne|]. apply not_err_bind; [apply nget_ne|]. intros e. destruct (0 <? e)%Z; [ne|].
  apply not_err_bind. { unfold conv_values. cbn [wCont]. destruct (wCont w); [|ne]. apply not_err_bind; [apply idx_not_err|ne]. }
  intros vs. destruct (Fields _ _ _) as [[h c] o]. apply not_err_bind; [apply nset_ne|ne].
Qed.
Lemma packH_ne marshal now d : not_err (packH marshal now d).
Proof.
  unfold packH. apply not_err_bind; [|intros [w h]; ne].
  generalize (pack_writer now (contents d)) as w, (hHeap d) as h. induction (hRows d) as [|[n s] rows IH]; intros w h; [ne|]. cbn [insert_allH].
  apply not_err_bind.
  { unfold converts. destruct (mask_size _) as [mask bits]. apply not_err_bind; [apply Nodes_ne|]. intros [[[ns i] b] ok].
    destruct (negb ok); [ne|]. apply not_err_bind; [apply nget_ne|ne]. }
  intros conv. apply not_err_bind; [apply insert_ne|]. intros [w' err]. apply IH.
Qed.
Definition packable : list bytes := [str ".ipdb"; str ".memip"; str ".scan"].
Lemma pack_error E ext d e : PackBytes (converterFormats E) ext d = Err e -> ~ In ext packable /\ e = ErrUnsupportedFormat.
Proof.
  intros H. unfold PackBytes in H. destruct (GetPackFormat (converterFormats E) ext) as [create|] eqn:G.
  - exfalso. revert H. unfold GetPackFormat, converterFormats, init_plain, init_memip, init_ipdb, init_awdb in G.
    cbn [RegisterDumpFormat RegisterQueryFormat RegisterPackFormat packFormats noFormats assoc] in G.
    destruct (bytes_eqb (str ".scan") ext); [injection G as <-; discriminate|].
    destruct (bytes_eqb (str ".memip") ext); [injection G as <-; apply not_err_bind; [apply mpack_ne|ne]|].
    destruct (bytes_eqb (str ".ipdb") ext); [injection G as <-; apply packH_ne|discriminate G].
  - split; [|congruence]. intros I. apply (proj1 (proj2 (proj2 (C42_programs E ext)))) in I. contradiction.
Qed.

(* ------------------------------------------------------------------ *)
(** The dataset that a run converts: the dump of the input file as it was before the run,
    with the line database as it was before the run. *)
Definition run_data (E : env) (ipList : list bytes) order grow (fs : files) (input rule line : bytes) (replace : bool) (d : HData) : Prop :=
  exists q, (if is_nil line then q = None
             else exists db content, fs line = Some content /\ NewDbFromBytes (converterFormats E) ipList (path_ext line) content = Ok db /\ q = Some (db, replace)) /\
    DumpFile (converterFormats E) input (fs input) (converterRule rule) (converterOps order grow q) = Ok d.

Definition accepted (can : bytes -> bool) (o : bytes) : Prop := can o = true /\ In (path_ext o) packable.
(** The file o holds the dataset d in the format of its extension. *)
Definition holds_packed (E : env) (d : HData) (fs : files) (o : bytes) : Prop :=
  exists b, fs o = Some b /\ PackBytes (converterFormats E) (path_ext o) d = Ok (b, d).

Lemma write_spec E can outputs : forall fs d fs' err, write_outputs E can outputs fs d = Ok (fs', err) ->
  match err with
  | None => Forall (accepted can) outputs /\ (forall p, ~ In p outputs -> fs' p = fs p) /\
      (plain_columns (hFields d) -> no_commas (contents d) -> forall o, In o outputs -> holds_packed E d fs' o)
  | Some e => exists done o rest, outputs = done ++ o :: rest /\ Forall (accepted can) done /\
      (forall p, ~ In p done -> p <> o -> fs' p = fs p) /\
      ((can o = false /\ (~ In o done -> fs' o = fs o)) \/
       (can o = true /\ ~ In (path_ext o) packable /\ e = ErrUnsupportedFormat /\ fs' o = Some [])) /\
      (plain_columns (hFields d) -> no_commas (contents d) -> forall p, In p done -> holds_packed E d fs' p)
  end.
Proof.
  induction outputs as [|o outputs IH]; intros fs d fs' err H; cbn [write_outputs] in H.
  { injection H as <- <-. split; [constructor|]. split; [reflexivity|]. intros _ _ o []. }
  unfold PackFile in H. destruct (can o) eqn:Co; cbn [negb bind] in H.
  2:{ injection H as <- <-. exists [], o, outputs. split; [reflexivity|]. split; [constructor|]. split; [reflexivity|]. split; [left; auto|]. intros _ _ p []. }
  assert (forall b p, p <> o -> set_file fs o b p = fs p) as S1.
  { intros b p N. unfold set_file. destruct (bytes_eqb_spec o p); [congruence|reflexivity]. }
  assert (forall b, set_file fs o b o = Some b) as S2 by (intros b; unfold set_file; rewrite bytes_eqb_refl; reflexivity).
  destruct (PackBytes (converterFormats E) (path_ext o) d) as [[b d']|e| |] eqn:P; cbn [bind] in H; try discriminate H.
  - assert (accepted can o) as Ac.
    { split; [assumption|]. apply (proj1 (proj2 (proj2 (C42_programs E (path_ext o))))). intros G. unfold PackBytes in P. rewrite G in P. discriminate P. }
    specialize (IH _ _ _ _ H).
    assert (forall l, In o l \/ ~ In o l) as Dec.
    { intros l. destruct (in_array o l) eqn:Ea; [left; apply in_array_iff; assumption|right]. intros Id. apply in_array_iff in Id. congruence. }
    destruct err as [e|].
    + destruct IH as (done & o' & rest & -> & F & K & D & C). exists (o :: done), o', rest. split; [reflexivity|]. split; [constructor; assumption|]. split.
      { intros p Np Npo. cbn [In] in Np. rewrite K by tauto. apply S1. intros ->. apply Np. left. reflexivity. }
      assert (o <> o') as No.
      { intros <-. destruct Ac as [A1 A2]. destruct D as [[D _]|(_ & D & _)]; [congruence|contradiction]. }
      split. { destruct D as [[D1 D2]|D]; [left|right; assumption]. split; [assumption|]. intros N. cbn [In] in N. rewrite D2 by tauto. apply S1. congruence. }
      intros HC HN p I. pose proof (PackBytes_keeps _ _ _ _ _ HC HN P) as ->.
      assert (In p done \/ (~ In p done /\ p = o)) as [J|[J ->]].
      { destruct I as [<-|I]; [destruct (Dec done); auto|auto]. }
      * apply C; assumption.
      * exists b. split; [|assumption]. rewrite K by assumption. apply S2.
    + destruct IH as (F & K & C). split; [constructor; assumption|]. split.
      { intros p Np. cbn [In] in Np. rewrite K by tauto. apply S1. intros ->. apply Np. left. reflexivity. }
      intros HC HN p I. pose proof (PackBytes_keeps _ _ _ _ _ HC HN P) as ->.
      assert (In p outputs \/ (~ In p outputs /\ p = o)) as [J|[J ->]].
      { destruct I as [<-|I]; [destruct (Dec outputs); auto|auto]. }
      * apply C; assumption.
      * exists b. split; [|assumption]. rewrite K by assumption. apply S2.
  - injection H as <- <-. destruct (pack_error _ _ _ _ P) as [Np ->].
    exists [], o, outputs. split; [reflexivity|]. split; [constructor|]. split; [intros p _; apply S1|].
    split; [right; auto|]. intros _ _ p [].
Qed.

Lemma run_cases E ipList order grow can fs input output rule line replace fs' err :
  converterMain E ipList order grow can fs input output rule line replace = Ok (fs', err) ->
  (fs' = fs /\ (exists e, err = Some e) /\ forall d, ~ run_data E ipList order grow fs input rule line replace d) \/
  (exists d, run_data E ipList order grow fs input rule line replace d /\ write_outputs E can (split x2c output) fs d = Ok (fs', err)).
Proof.
  unfold converterMain, run_data, line_db.
  assert (forall q, (match DumpFile (converterFormats E) input (fs input) (converterRule rule) (converterOps order grow q) with
     | Ok d => write_outputs E can (split x2c output) fs d | Err e => Ok (fs, Some e) | Panic => Panic | OutOfFuel => OutOfFuel end) = Ok (fs', err) ->
     (fs' = fs /\ (exists e, err = Some e) /\ forall d, DumpFile (converterFormats E) input (fs input) (converterRule rule) (converterOps order grow q) <> Ok d) \/
     exists d, DumpFile (converterFormats E) input (fs input) (converterRule rule) (converterOps order grow q) = Ok d /\ write_outputs E can (split x2c output) fs d = Ok (fs', err)) as G.
  { intros q H. destruct (DumpFile _ _ _ _ _) as [d|e| |]; try discriminate H.
    - right. eauto.
    - left. injection H as <- <-. split; [reflexivity|]. split; [eauto|]. intros d Q. discriminate Q. }
  destruct line as [|c line]; cbn [is_nil].
  - intros H. destruct (G None H) as [(A & B & C)|(d & A & B)]; [left|right].
    + split; [assumption|]. split; [assumption|]. intros d (q & -> & D). exact (C d D).
    + exists d. split; [|assumption]. exists None. auto.
  - unfold NewDb. destruct (fs (c :: line)) as [content|] eqn:Fc; cbn [bind]; [|discriminate].
    destruct (NewDbFromBytes _ _ _ content) as [db|e| |] eqn:Nd; cbn [bind]; try discriminate.
    + intros H. destruct (G (Some (db, replace)) H) as [(A & B & C)|(d & A & B)]; [left|right].
      * split; [assumption|]. split; [assumption|]. intros d (q & (db' & content' & H1 & H2 & ->) & D). assert (content' = content) as -> by congruence.
        assert (db' = db) as -> by congruence. exact (C d D).
      * exists d. split; [|assumption]. exists (Some (db, replace)). split; [|assumption]. exists db, content. auto.
    + intros H. left. injection H as <- <-. split; [reflexivity|]. split; [eauto|].
      intros d (q & (db' & content' & H1 & H2 & ->) & D). congruence.
Qed.

(** C59: a run that ends without an error has written every output and nothing else. *)
Theorem C59_done : forall E ipList order grow can fs input output rule line replace fs',
  converterMain E ipList order grow can fs input output rule line replace = Ok (fs', None) ->
  exists d, run_data E ipList order grow fs input rule line replace d /\
    Forall (accepted can) (split x2c output) /\
    (forall p, ~ In p (split x2c output) -> fs' p = fs p) /\
    (plain_columns (hFields d) -> no_commas (contents d) -> forall o, In o (split x2c output) -> holds_packed E d fs' o).
Proof.
  intros E il order grow can fs input output rule line replace fs' H.
  destruct (run_cases _ _ _ _ _ _ _ _ _ _ _ _ _ H) as [(_ & [e Q] & _)|(d & R & W)]; [discriminate Q|].
  exists d. split; [assumption|]. exact (write_spec _ _ _ _ _ _ _ W).
Qed.
Print Assumptions C59_done.

(** C59: a run that ends with an error has changed nothing if there was no dataset to
    write; otherwise it stopped at the first output that cannot be created or has another
    extension: the outputs before are complete, those after are untouched, and a file with
    another extension is emptied. *)
Theorem C59_failed : forall E ipList order grow can fs input output rule line replace fs' e,
  converterMain E ipList order grow can fs input output rule line replace = Ok (fs', Some e) ->
  (fs' = fs /\ forall d, ~ run_data E ipList order grow fs input rule line replace d) \/
  exists d done o rest, run_data E ipList order grow fs input rule line replace d /\
    split x2c output = done ++ o :: rest /\ Forall (accepted can) done /\
    (forall p, ~ In p done -> p <> o -> fs' p = fs p) /\
    ((can o = false /\ (~ In o done -> fs' o = fs o)) \/
     (can o = true /\ ~ In (path_ext o) packable /\ e = ErrUnsupportedFormat /\ fs' o = Some [])) /\
    (plain_columns (hFields d) -> no_commas (contents d) -> forall p, In p done -> holds_packed E d fs' p).
Proof.
  intros E il order grow can fs input output rule line replace fs' e H.
  destruct (run_cases _ _ _ _ _ _ _ _ _ _ _ _ _ H) as [(A & _ & B)|(d & R & W)]; [left; auto|right].
  destruct (write_spec _ _ _ _ _ _ _ W) as (done & o & rest & Q). exists d, done, o, rest. split; [assumption|]. exact Q.
Qed.
Print Assumptions C59_failed.

(** C59: so an awdb file that is named as output is lost, even if it is the input. *)
Theorem C59_awdb_output_lost : forall E ipList order grow can fs input o rule line replace d,
  run_data E ipList order grow fs input rule line replace d -> no_byte x2c o -> can o = true -> path_ext o = str ".awdb" ->
  exists fs', converterMain E ipList order grow can fs input o rule line replace = Ok (fs', Some ErrUnsupportedFormat) /\ fs' o = Some [].
Proof.
  intros E il order grow can fs input o rule line replace d (q & Hq & D) Nc Co Ex.
  unfold converterMain, line_db.
  assert (split x2c o = [o]) as Sp by (apply split_single; assumption).
  assert (write_outputs E can (split x2c o) fs d = Ok (set_file fs o [], Some ErrUnsupportedFormat)) as W.
  { rewrite Sp. cbn [write_outputs]. unfold PackFile. rewrite Co. cbn [negb]. rewrite Ex. reflexivity. }
  exists (set_file fs o []). split; [|unfold set_file; rewrite bytes_eqb_refl; reflexivity].
  destruct line as [|c line]; cbn [is_nil] in Hq.
  - subst q. rewrite D. exact W.
  - destruct Hq as (db & content & F & N & ->). unfold NewDb. rewrite F, N. cbn [bind]. rewrite D. exact W.
Qed.
Print Assumptions C59_awdb_output_lost.

(* ------------------------------------------------------------------ *)
(** A case: the awdb file of C58 converted into two files; and lost when it is the output. *)
Definition case_fs : files := fun p => if bytes_eqb p (str "a.awdb") then Some aw_cn else None.
Definition case_run (output : bytes) : res (files * option error) :=
  converterMain aw_env [] (fun _ m => m) (fun _ => 1) (fun p => negb (is_nil p)) case_fs (str "a.awdb") output (str "default") [] false.
Definition cn_text : bytes := str "0 2147483647 默认-浙江-华东-电信-中国-默认
2147483648 4294967295 默认-默认-默认-电信-美国-默认
".
Example C59_case :
  (exists fs', case_run (str "b.ipdb,c.memip") = Ok (fs', None) /\ fs' (str "c.memip") = Some cn_text /\ fs' (str "a.awdb") = Some aw_cn) /\
  (exists fs', case_run (str "c.memip,a.awdb,b.ipdb") = Ok (fs', Some ErrUnsupportedFormat) /\
     fs' (str "c.memip") = Some cn_text /\ fs' (str "a.awdb") = Some [] /\ fs' (str "b.ipdb") = None) /\
  (exists fs', case_run [] = Ok (fs', Some (ErrOther (str "create"))) /\ fs' (str "a.awdb") = Some aw_cn) /\
  (exists d, run_data aw_env [] (fun _ m => m) (fun _ => 1) case_fs (str "a.awdb") (str "default") [] false d /\
     plain_columns (hFields d) /\ no_commas (contents d)).
Proof.
  assert (match case_run (str "b.ipdb,c.memip") with Ok (fs', None) => Some (fs' (str "c.memip"), fs' (str "a.awdb")) | _ => None end = Some (Some cn_text, Some aw_cn)) as R1 by (vm_compute; reflexivity).
  assert (match case_run (str "c.memip,a.awdb,b.ipdb") with Ok (fs', Some ErrUnsupportedFormat) => Some (fs' (str "c.memip"), fs' (str "a.awdb"), fs' (str "b.ipdb")) | _ => None end
    = Some (Some cn_text, Some [], None)) as R2 by (vm_compute; reflexivity).
  assert (match case_run [] with Ok (fs', Some e) => Some (e, fs' (str "a.awdb")) | _ => None end = Some (ErrOther (str "create"), Some aw_cn)) as R3 by (vm_compute; reflexivity).
  split; [|split; [|split]].
  - destruct (case_run (str "b.ipdb,c.memip")) as [[fs' [e|]]| | |]; try discriminate R1. exists fs'. split; [reflexivity|]. injection R1 as H1 H2. auto.
  - destruct (case_run (str "c.memip,a.awdb,b.ipdb")) as [[fs' [e|]]| | |]; try discriminate R2. destruct e; try discriminate R2. exists fs'. split; [reflexivity|]. injection R2 as H1 H2 H3. auto.
  - destruct (case_run []) as [[fs' [e|]]| | |]; try discriminate R3. exists fs'. injection R3 as H1 H2. rewrite H1. auto.
  - destruct C58_awdb_case as (_ & (r & d0 & d & _ & _ & _ & _ & _ & _ & _ & D & Ec) & _).
    exists d. split; [exists None; split; [reflexivity|exact D]|].
    change (hFields d) with (dFields (contents d)). rewrite Ec. cbn [cn_done dFields]. split.
    + intros f I N L. cbn [seven In] in I. repeat (destruct I as [<-|I]; [first [contradiction|vm_compute in L; discriminate L]|]). destruct I.
    + unfold no_commas. cbn [cn_done dIps]. repeat (constructor; [repeat (constructor; [intros I; apply in_map with (f := b2n) in I; vm_compute in I; intuition discriminate|]); constructor|]). constructor.
Qed.

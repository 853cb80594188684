(** C42: the registry of formats.
    *)
From Verif Require Import Base NetIP IpNet Spec IpNetProofs SplitProofs IpNetProofs2 Inf Ipdb SpecIpdb Bits TrieProofs WriterProofs ReaderProofs OpenProofs PackProofs PropsIpdb.
From Verif Require Import Export SpecExport Tables Operate SpecOperate OperateProofs OperateProofs2 NetText NetTextProofs Plain SpecText PlainProofs PropsPlain Memip AwDecode AwTree SpecAwTree AwTreeProofs Facade.
Open Scope nat_scope.

(* ------------------------------------------------------------------ *)
(** ** C42 *)
(** A history of registrations. *)
Inductive event := RegDump (ext : bytes) (h : dumpHandler) | RegQuery (ext : bytes) (h : queryHandler) | RegPack (ext : bytes) (h : packHandler).
Definition happen (r : formats) (e : event) : formats :=
  match e with
  | RegDump x h => RegisterDumpFormat x h r
  | RegQuery x h => RegisterQueryFormat x h r
  | RegPack x h => RegisterPackFormat x h r
  end.
Definition registered (l : list event) : formats := fold_left happen l noFormats.
(** e is the last event of the history l among those for which [sel] holds *)
Definition last_of (sel : event -> Prop) (l : list event) (e : event) : Prop :=
  exists l1 l2, l = l1 ++ e :: l2 /\ sel e /\ forall x, In x l2 -> ~ sel x.
Definition for_dump (ext : bytes) (e : event) : Prop := exists h, e = RegDump ext h.
Definition for_query (ext : bytes) (e : event) : Prop := exists h, e = RegQuery ext h.
Definition for_pack (ext : bytes) (e : event) : Prop := exists h, e = RegPack ext h.

Lemma registered_snoc l e : registered (l ++ [e]) = happen (registered l) e.
Proof. unfold registered. rewrite fold_left_app. reflexivity. Qed.
Lemma bytes_eqb_sym' (a b : bytes) : bytes_eqb a b = bytes_eqb b a.
Proof. destruct (bytes_eqb_spec a b), (bytes_eqb_spec b a); congruence. Qed.
Lemma last_gen {H : Type} (mk : bytes -> H -> event) (get : formats -> bytes -> option H)
  (sel : bytes -> event -> Prop) :
  (forall x e, sel x e <-> exists h, e = mk x h) ->
  (forall x h h', mk x h = mk x h' -> h = h') ->
  (forall x, get noFormats x = None) ->
  (forall r x e, (exists h, e = mk x h /\ get (happen r e) x = Some h) \/ (~ sel x e /\ get (happen r e) x = get r x)) ->
  forall l x, (forall h, get (registered l) x = Some h <-> last_of (sel x) l (mk x h)) /\
              (get (registered l) x = None <-> forall e, In e l -> ~ sel x e).
Proof.
  intros Hs Inj H0 Hst l x. induction l as [|e l [IH1 IH2]] using rev_ind.
  - change (registered []) with (@noFormats dumpHandler queryHandler packHandler). rewrite H0. split.
    + intros h. split; [discriminate|]. intros (l1 & l2 & E & _). destruct l1; discriminate.
    + split; [intros _ e []|reflexivity].
  - rewrite registered_snoc. destruct (Hst (registered l) x e) as [(h0 & -> & E)|(N & E)]; rewrite E; split.
    + intros h. split.
      * intros [= ->]. exists l, []. split; [reflexivity|]. split; [apply Hs; eauto|intros y []].
      * intros (l1 & l2 & E2 & S & Q). destruct l2 as [|y l2] using rev_ind.
        -- apply app_inj_tail in E2 as [_ E2]. f_equal. apply (Inj x). congruence.
        -- exfalso. rewrite app_comm_cons, app_assoc in E2. apply app_inj_tail in E2 as [_ <-].
           apply (Q (mk x h0)); [apply in_or_app; right; now left|]. apply Hs. eauto.
    + split; [discriminate|]. intros Q. exfalso. apply (Q (mk x h0)); [apply in_or_app; right; now left|]. apply Hs. eauto.
    + intros h. rewrite IH1. split; intros (l1 & l2 & E2 & S & Q).
      * exists l1, (l2 ++ [e]). split; [rewrite E2; now rewrite <- app_assoc|]. split; [assumption|].
        intros y I. apply in_app_or in I as [I|[<-|[]]]; auto.
      * destruct l2 as [|y l2 _] using rev_ind.
        -- apply app_inj_tail in E2 as [_ ->]. contradiction.
        -- rewrite app_comm_cons, app_assoc in E2. apply app_inj_tail in E2 as [E2 _].
           exists l1, l2. split; [assumption|]. split; [assumption|]. intros z I. apply Q. apply in_or_app. now left.
    + rewrite IH2. split; intros Q y I.
      * apply in_app_or in I as [I|[<-|[]]]; auto.
      * apply Q. apply in_or_app. now left.
Qed.
Theorem C42_last_registered : forall l ext,
  (forall h, GetDumpFormat (registered l) ext = Some h <-> last_of (for_dump ext) l (RegDump ext h)) /\
  (forall h, GetQueryFormat (registered l) ext = Some h <-> last_of (for_query ext) l (RegQuery ext h)) /\
  (forall h, GetPackFormat (registered l) ext = Some h <-> last_of (for_pack ext) l (RegPack ext h)) /\
  (GetDumpFormat (registered l) ext = None <-> forall e, In e l -> ~ for_dump ext e) /\
  (GetQueryFormat (registered l) ext = None <-> forall e, In e l -> ~ for_query ext e) /\
  (GetPackFormat (registered l) ext = None <-> forall e, In e l -> ~ for_pack ext e).
Proof.
  intros l ext.
  destruct (last_gen RegDump GetDumpFormat for_dump) with (l := l) (x := ext) as [D1 D2].
  { reflexivity. } { congruence. } { reflexivity. }
  { intros r x [y h|y h|y h]; cbn [happen]; unfold GetDumpFormat; cbn [RegisterDumpFormat RegisterQueryFormat RegisterPackFormat dumpFormats assoc];
    try (right; split; [intros [h' Q]; discriminate|reflexivity]).
    destruct (bytes_eqb_spec y x) as [->|N]; [left; eauto|right]. split; [intros [h' [= Q _]]; contradiction|reflexivity]. }
  destruct (last_gen RegQuery GetQueryFormat for_query) with (l := l) (x := ext) as [Q1 Q2].
  { reflexivity. } { congruence. } { reflexivity. }
  { intros r x [y h|y h|y h]; cbn [happen]; unfold GetQueryFormat; cbn [RegisterDumpFormat RegisterQueryFormat RegisterPackFormat queryFormats assoc];
    try (right; split; [intros [h' Q]; discriminate|reflexivity]).
    destruct (bytes_eqb_spec y x) as [->|N]; [left; eauto|right]. split; [intros [h' [= Q _]]; contradiction|reflexivity]. }
  destruct (last_gen RegPack GetPackFormat for_pack) with (l := l) (x := ext) as [P1 P2].
  { reflexivity. } { congruence. } { reflexivity. }
  { intros r x [y h|y h|y h]; cbn [happen]; unfold GetPackFormat; cbn [RegisterDumpFormat RegisterQueryFormat RegisterPackFormat packFormats assoc];
    try (right; split; [intros [h' Q]; discriminate|reflexivity]).
    destruct (bytes_eqb_spec y x) as [->|N]; [left; eauto|right]. split; [intros [h' [= Q _]]; contradiction|reflexivity]. }
  repeat (split; [assumption|]). assumption.
Qed.
(** Without a registration for the extension every entry point gives the error (PackFile
    after it has made the file empty). *)
Theorem C42_unsupported : forall l ext,
  ((forall e, In e l -> ~ for_query ext e) -> forall ipList b, NewDbFromBytes (registered l) ipList ext b = Err ErrUnsupportedFormat) /\
  ((forall e, In e l -> ~ for_dump ext e) -> forall file b rule ops, path_ext file = ext ->
     DumpFile (registered l) file (Some b) rule ops = Err ErrUnsupportedFormat) /\
  ((forall e, In e l -> ~ for_pack ext e) -> forall d, PackBytes (registered l) ext d = Err ErrUnsupportedFormat /\
     forall file, path_ext file = ext -> PackFile (registered l) true file d = Ok (Some [], d, Some ErrUnsupportedFormat)).
Proof.
  intros l ext. destruct (C42_last_registered l ext) as (_ & _ & _ & D & Q & P). repeat split.
  - intros H ipList b. unfold NewDbFromBytes. apply Q in H. now rewrite H.
  - intros H file b rule ops E. unfold DumpFile. rewrite E. apply D in H. now rewrite H.
  - unfold PackBytes. apply P in H. now rewrite H.
  - intros file E. unfold PackFile. cbn [negb]. unfold PackBytes. rewrite E. apply P in H. now rewrite H.
Qed.
(** The extensions of the programs. *)
Theorem C42_programs : forall E ext,
  (GetDumpFormat (converterFormats E) ext <> None <-> In ext [str ".awdb"; str ".ipdb"; str ".memip"; str ".scan"]) /\
  (GetQueryFormat (converterFormats E) ext <> None <-> In ext [str ".awdb"; str ".ipdb"]) /\
  (GetPackFormat (converterFormats E) ext <> None <-> In ext [str ".ipdb"; str ".memip"; str ".scan"]) /\
  (GetQueryFormat (serverFormats E) ext <> None <-> In ext [str ".awdb"; str ".ipdb"]).
Proof.
  intros E ext. unfold GetDumpFormat, GetQueryFormat, GetPackFormat, converterFormats, serverFormats, init_plain, init_memip, init_ipdb, init_awdb.
  cbn [RegisterDumpFormat RegisterQueryFormat RegisterPackFormat dumpFormats queryFormats packFormats noFormats assoc].
  repeat split;
    repeat match goal with |- context [bytes_eqb ?a ext] => destruct (bytes_eqb_spec a ext) as [<-|?] end;
    intros H; cbn [In] in *; try tauto; try congruence; try discriminate.
Qed.
(** The extension of a file name: from the last dot, if no slash follows. *)
Theorem C42_extension : forall dir e, no_byte x2f e -> no_byte x2e e -> path_ext (dir ++ x2e :: e) = x2e :: e.
Proof.
  intros dir e H1 H2. unfold path_ext. rewrite rev_app_distr. cbn [rev]. rewrite <- app_assoc.
  assert (G : forall r acc rest, no_byte x2f r -> no_byte x2e r -> ext_loop (r ++ x2e :: rest) acc = x2e :: rev r ++ acc).
  { induction r as [|c r IH]; intros acc rest A B; [reflexivity|]. cbn [app ext_loop rev].
    assert (byte_eqb c x2f = false) as -> by (destruct (byte_eqb_spec c x2f) as [->|]; [exfalso; apply A; now left|reflexivity]).
    assert (byte_eqb c x2e = false) as -> by (destruct (byte_eqb_spec c x2e) as [->|]; [exfalso; apply B; now left|reflexivity]).
    rewrite IH; [now rewrite <- app_assoc|intros I; apply A; now right|intros I; apply B; now right]. }
  cbn [app]. rewrite G; [|intros I; apply H1; now apply in_rev|intros I; apply H2; now apply in_rev].
  now rewrite rev_involutive, app_nil_r.
Qed.
Theorem C42_no_extension : forall dir e, no_byte x2f e -> no_byte x2e e -> path_ext (dir ++ x2f :: e) = [] /\ path_ext e = [].
Proof.
  intros dir e H1 H2. unfold path_ext. rewrite rev_app_distr. cbn [rev]. rewrite <- app_assoc.
  assert (G : forall r acc rest, no_byte x2f r -> no_byte x2e r -> (rest = [] \/ exists t, rest = x2f :: t) -> ext_loop (r ++ rest) acc = []).
  { induction r as [|c r IH]; intros acc rest A B R; [destruct R as [->|[t ->]]; reflexivity|]. cbn [app ext_loop].
    assert (byte_eqb c x2f = false) as -> by (destruct (byte_eqb_spec c x2f) as [->|]; [exfalso; apply A; now left|reflexivity]).
    assert (byte_eqb c x2e = false) as -> by (destruct (byte_eqb_spec c x2e) as [->|]; [exfalso; apply B; now left|reflexivity]).
    apply IH; [intros I; apply A; now right|intros I; apply B; now right|assumption]. }
  cbn [app]. split.
  - apply G; [intros I; apply H1; now apply in_rev|intros I; apply H2; now apply in_rev|right; eauto].
  - rewrite <- (app_nil_r (rev e)). apply G; [intros I; apply H1; now apply in_rev|intros I; apply H2; now apply in_rev|now left].
Qed.
Example C42_case : path_ext (str "/data/v1.2/city.free.ipdb") = str ".ipdb" /\ path_ext (str "/data/v1.2/city") = [].
Proof. split; reflexivity. Qed.

(** C59 once more: outputs that are named twice; and small functions of the interface (C06, C23, C56, C62). *)
From Verif Require Import Base NetIP IpNet Spec IpNetProofs SplitProofs IpNetProofs2 Inf Ipdb SpecIpdb SpecExport Export ExportProofs BuildProofs Bits.
From Verif Require Import TrieProofs WriterProofs ReaderProofs OpenProofs PackProofs PropsIpdb DumpProofs PropsExport PropsDump.
From Verif Require Import Json JsonProofs PropsJson.
From Verif Require Import Tables Operate SpecOperate OperateProofs OperateProofs2 PropsOperate PropsOperate2 NetText NetTextProofs Plain SpecText PlainProofs PropsPlain Memip AwDecode AwTree Facade PropsFacade PropsFacade2 PropsFacade3 ConvertProofs ConvertProofs2 FastOpen PropsConvert PropsConvert2 Convert PropsConvert3 PropsConvert4 PropsTight PropsIpNet Foreign.
Open Scope nat_scope.

(** The outputs of a run up to one that is written. *)
Lemma write_at E can outputs : forall fs d fs' before o after, write_outputs E can outputs fs d = Ok (fs', None) ->
  legal d -> plain_columns (hFields d) -> outputs = before ++ o :: after -> ~ In o after ->
  exists b d1 d2, fs' o = Some b /\ PackBytes (converterFormats E) (path_ext o) d1 = Ok (b, d2) /\
    (Exists is_scan before -> contents d1 = scanned (contents d)) /\ (~ Exists is_scan before -> d1 = d).
Proof.
  induction outputs as [|x outputs IH]; intros fs d fs' before o after H L HC E0 Na; [destruct before; discriminate|].
  cbn [write_outputs] in H. unfold PackFile in H. destruct (can x); cbn [negb bind] in H; [|discriminate].
  destruct (PackBytes (converterFormats E) (path_ext x) d) as [[b d']|e| |] eqn:P; cbn [bind] in H; try discriminate H.
  destruct before as [|y before]; cbn [app] in E0; injection E0 as Ex Eo.
  - subst x outputs. exists b, d, d'. split.
    { rewrite (write_keeps _ _ _ _ _ _ H) by assumption. unfold set_file. rewrite bytes_eqb_refl. reflexivity. }
    split; [assumption|]. split; [intros Q; inversion Q|reflexivity].
  - subst y. destruct (PackBytes_next E x d b d' L HC P) as (L' & F' & S1 & S2).
    destruct (IH _ _ _ before o after H L' ltac:(rewrite F'; assumption) Eo Na) as (b2 & d1 & d2 & A & B & C1 & C2).
    exists b2, d1, d2. split; [assumption|]. split; [assumption|].
    assert (is_scan x \/ ~ is_scan x) as Dx by (unfold is_scan; destruct (bytes_eqb_spec (path_ext x) (str ".scan")); auto).
    assert (Exists is_scan before \/ ~ Exists is_scan before) as Db.
    { destruct (Exists_dec is_scan before) as [|]; auto. intros z. unfold is_scan. destruct (bytes_eqb_spec (path_ext z) (str ".scan")); [left|right]; assumption. }
    split.
    + intros Q. destruct Dx as [Dx|Dx].
      * destruct Db as [Db|Db]; [rewrite (C1 Db), (S1 Dx); apply scanned_idem|rewrite (C2 Db); auto].
      * inversion Q as [? ? Q0|? ? Q0]; subst; [contradiction|]. rewrite (C1 Q0), (S2 Dx). reflexivity.
    + intros Q. rewrite C2 by (intros Z; apply Q; right; assumption). apply S2. intros Z. apply Q. left. assumption.
Qed.
(** C59: a file that is named more than once holds what its last turn gives: the dataset of the run,
    or, when a text output comes anywhere before that turn (itself included), the dataset with every
    comma in a value replaced. *)
Theorem C59_last_turn : forall E ipList order grow can fs input output rule line replace fs',
  converterMain E ipList order grow can fs input output rule line replace = Ok (fs', None) ->
  exists d, run_data E ipList order grow fs input rule line replace d /\
    (legal d -> plain_columns (hFields d) -> forall before o after, split x2c output = before ++ o :: after -> ~ In o after ->
     exists b d1 d2, fs' o = Some b /\ PackBytes (converterFormats E) (path_ext o) d1 = Ok (b, d2) /\
       (Exists is_scan before -> contents d1 = scanned (contents d)) /\ (~ Exists is_scan before -> d1 = d)).
Proof.
  intros E il order grow can fs input output rule line replace fs' H.
  destruct (run_cases _ _ _ _ _ _ _ _ _ _ _ _ _ H) as [(_ & [e Q] & _)|(d & R & W)]; [discriminate Q|].
  exists d. split; [assumption|]. intros L HC before o after Eo Na. exact (write_at _ _ _ _ _ _ _ _ _ W L HC Eo Na).
Qed.
Print Assumptions C59_last_turn.
(** A case: b.memip is written before and after a text output; the second turn counts. *)
Example C59_last_turn_case :
  legal demo_plain /\
  exists fs1 fs2, write_outputs case_env (fun _ => true) [str "b.memip"; str "a.scan"; str "b.memip"] (fun _ => None) demo_plain = Ok (fs1, None) /\
    write_outputs case_env (fun _ => true) [str "b.memip"; str "a.scan"] (fun _ => None) demo_plain = Ok (fs2, None) /\
    fs1 (str "b.memip") <> fs2 (str "b.memip").
Proof.
  split; [repeat constructor; cbn; lia|].
  eexists _, _. split; [vm_compute; reflexivity|]. split; [vm_compute; reflexivity|]. vm_compute. discriminate.
Qed.

(* ---------- small functions of the interface ---------- *)
(** C06: the method of a range asks the same question. *)
Theorem C06_range_method : forall r ip, wf_range r -> valid_ip ip ->
  (~ all_ones (rEnd r) -> (RangeContains r ip = true <-> (addr (rStart r) <= addr ip <= addr (rEnd r))%N)) /\
  (all_ones (rEnd r) -> (length (rEnd r) = 4 -> (v4base <= addr (rStart r))%N) -> RangeContains r ip = false).
Proof.
  intros r ip [Ws We Wl] V. unfold RangeContains. split; intros H.
  - apply C06_contains; assumption.
  - apply C06_contains_allones; assumption.
Qed.
Print Assumptions C06_range_method.
Example C06_range_method_case : let r := mkRange (repeat x00 16) (repeat x00 15 ++ [x09]) in
  wf_range r /\ ~ all_ones (rEnd r) /\ RangeContains r (repeat x00 15 ++ [x09]) = true /\ RangeContains r (repeat x00 15 ++ [x0a]) = false.
Proof. cbn zeta. split; [constructor; [right; reflexivity|right; reflexivity|vm_compute; discriminate]|]. split; [vm_compute; discriminate|]. split; reflexivity. Qed.

(** C56: IsAllMask recognises the last address: of all, or, in 4 bytes, of IPv4. *)
Theorem C56_all_mask : forall ip, valid_ip ip ->
  (IsAllMask ip = true <-> addr ip = if length ip =? 4 then (v4base + 2 ^ 32 - 1)%N else (2 ^ 128 - 1)%N).
Proof.
  intros ip V. unfold IsAllMask. rewrite all_ff_ones. unfold all_ones. pose proof (addr_val ip V) as A. destruct V as [L|L]; rewrite L in *; cbn [Nat.eqb] in *.
  - rewrite A. change (8 * N.of_nat 4)%N with 32%N. unfold v4base. lia.
  - rewrite A. change (8 * N.of_nat 16)%N with 128%N. lia.
Qed.
Print Assumptions C56_all_mask.
Example C56_all_mask_case : valid_ip (repeat xff 4) /\ IsAllMask (repeat xff 4) = true /\ IsAllMask (x7f :: repeat xff 3) = false /\
  IsAllMask (repeat x00 10 ++ repeat xff 6) = false.
Proof. split; [left; reflexivity|]. repeat split. Qed.

(** C62: asked for a number, the Rust reader answers as for the four bytes of the IPv4 address with
    that number, the one that Go's QueryU32 asks for. *)
Theorem C62_rust_number : forall lossy r u ip, (u < 2 ^ 32)%N -> length ip = 4 -> addr ip = (v4base + u)%N ->
  rs_query_u32 lossy r u = rs_query lossy r ip /\ forall q, QueryU32 q u = DbQuery q ip.
Proof.
  intros lossy r u ip Hu L A. split; [|intros q; apply C47_u32; [assumption|left; assumption|assumption]].
  unfold rs_query_u32. f_equal. pose proof (addr_val ip (or_introl L)) as Av. rewrite L in Av. cbn [Nat.eqb] in Av.
  rewrite <- (be_enc_val ip), L. f_equal. unfold v4base in *. lia.
Qed.
Print Assumptions C62_rust_number.
Example C62_rust_number_case : length [x01; x02; x03; x04] = 4 /\ addr [x01; x02; x03; x04] = (v4base + 16909060)%N.
Proof. split; reflexivity. Qed.

(** C23: the rule called LineRule selects the line column and nothing else, without conditions. *)
Theorem C23_line_rule : exists e, ParseRule LineRule = Some e /\ eFields e = [str "line"] /\ means e [].
Proof.
  destruct (C23_documented_syntax [str "line"] []) as (e & P & F & M).
  - discriminate.
  - constructor; [|constructor]. unfold no_bytes. cbn [str]. repeat apply Forall_cons; try apply Forall_nil; vm_compute; intuition discriminate.
  - constructor.
  - discriminate.
  - exists e. auto.
Qed.
Print Assumptions C23_line_rule.

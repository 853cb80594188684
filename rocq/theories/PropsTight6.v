(** Datasets with a row that is too short for its columns: the operations crash (C28, C29, C30, C48). *)
From Coq Require Import Permutation.
From Verif Require Import IpNet Inf Ipdb Spec SpecIpdb PropsIpdb Tables Operate SpecOperate OperateProofs OperateProofs2 MergeProofs PropsOperate PropsOperate2 PropsOperate3.
Open Scope nat_scope.

(** Some row has no value at column i. *)
Definition short_row (i : nat) (d : IpData) : Prop := Exists (fun r => length (fvals r) <= i) (dIps d).

Lemma short_slice d i : legal d -> short_row i (contents d) -> exists n s, In (n, s) (hRows d) /\ sLen s <= i.
Proof.
  intros Lg H. apply Exists_exists in H as (r & I & L). unfold contents in I. cbn [dIps] in I. apply in_map_iff in I as ([n s] & <- & I).
  cbn [fvals] in L. exists n, s. split; [assumption|]. unfold legal in Lg. rewrite Forall_forall in Lg. destruct (Lg _ I) as [_ B]. cbn [fst snd] in *.
  unfold view in L. rewrite firstn_length in L. lia.
Qed.
Lemma view_short h s : length (view h s) <= sLen s.
Proof. unfold view. rewrite firstn_length. lia. Qed.
Lemma idx_short {A} (l : list A) i : length l <= i -> idx l i = Panic.
Proof. intros H. unfold idx. rewrite (proj2 (nth_error_None l i) H). reflexivity. Qed.
Lemma idx_cases {A} (l : list A) i : idx l i = Panic \/ exists x, idx l i = Ok x.
Proof. unfold idx. destruct (nth_error l i); eauto. Qed.

(** A loop whose body always succeeds or crashes, with one row where it crashes whatever the heap. *)
Lemma each_row_crash grow body n s : (forall k n v, body k n v = Panic \/ exists a, body k n v = Ok a) ->
  (forall k h, body k n (view h s) = Panic \/ exists a, body k n (view h s) = Ok a /\ perform grow h s a = Panic) ->
  forall rows k h, In (n, s) rows -> each_row grow body k h rows = Panic.
Proof.
  intros T C. induction rows as [|[n1 s1] rows IH]; intros k h I; [destruct I|]. cbn [each_row].
  destruct I as [E|I].
  - injection E as -> ->. destruct (C k h) as [->|(a & -> & P)]; [reflexivity|]. cbn [bind]. rewrite P. reflexivity.
  - destruct (T k n1 (view h s1)) as [->|(a & ->)]; [reflexivity|]. cbn [bind].
    assert (perform grow h s1 a = Panic \/ exists p, perform grow h s1 a = Ok p) as [->|([h1 s1'] & ->)].
    { destruct a as [|i v|v]; cbn [perform]; [right; eauto| |right; eauto]. destruct (i <? sLen s1); [right; eauto|left; reflexivity]. }
    + reflexivity.
    + cbn [bind]. rewrite IH by assumption. reflexivity.
Qed.

(** Every answer is an information, an error or a crash of its own. *)
Definition halts (q : bytes -> res IpInfo) : Prop := forall ip, q ip <> OutOfFuel.

Lemma row_line_cases q pc n v : halts q -> row_line q pc n v = Panic \/ exists l, row_line q pc n v = Ok l.
Proof.
  intros H. unfold row_line. destruct (idx_cases v pc) as [->|[c ->]]; cbn [bind]; [auto|]. destruct (bytes_eqb c china); [|eauto].
  unfold queryLine. specialize (H (nIP n)). destruct (q (nIP n)); try congruence; eauto.
Qed.

(** C30: a row without a value for the country, or for the line where there is a line column:
    attaching lines crashes. *)
Theorem C30_short_row : forall grow q ver d pc, halts q -> legal d -> column_at (str "country") (dFields (contents d)) pc ->
  (short_row pc (contents d) -> AttachLineByCidr grow q ver d = Panic) /\
  (forall pl, column_at (str "line") (dFields (contents d)) pl -> short_row pl (contents d) ->
     AttachLineByCidr grow q ver d = Panic) /\
  (forall pi, column_at (str "isp") (dFields (contents d)) pi -> short_row pc (contents d) ->
     ReplaceLineByCidr q ver d = Panic).
Proof.
  intros grow q ver d pc Hq Lg [C1 C2]. cbn [contents dFields] in C1, C2.
  pose proof (offset_first (str "country") _ _ C1 C2) as Oc. change (str "country") with fCountry in Oc.
  assert (offset_of fCountry (match offset_of fLine (hFields d) with None => hFields d ++ [fLine] | Some _ => hFields d end) = Some pc) as Oc'.
  { destruct (offset_of fLine (hFields d)) eqn:El; [assumption|]. rewrite offset_app by assumption. rewrite Oc. reflexivity. }
  split; [|split].
  - intros S. destruct (short_slice d pc Lg S) as (n & s & I & L). unfold AttachLineByCidr. rewrite Oc'.
    rewrite (each_row_crash _ _ n s); [reflexivity| | |assumption].
    + intros k n1 v. destruct (row_line_cases q pc n1 v Hq) as [->|[l ->]]; cbn [bind]; eauto.
    + intros k h. left. unfold row_line. rewrite idx_short by (pose proof (view_short h s); lia). reflexivity.
  - intros pl [L1 L2] S. cbn [contents dFields] in L1, L2. pose proof (offset_first (str "line") _ _ L1 L2) as Ol. change (str "line") with fLine in Ol.
    destruct (short_slice d pl Lg S) as (n & s & I & L). unfold AttachLineByCidr. rewrite Ol, Oc in *. 
    rewrite (each_row_crash _ _ n s); [reflexivity| | |assumption].
    + intros k n1 v. destruct (row_line_cases q pc n1 v Hq) as [->|[l ->]]; cbn [bind]; eauto.
    + intros k h. destruct (row_line_cases q pc n (view h s) Hq) as [->|[l ->]]; cbn [bind]; [auto|]. right. eexists. split; [reflexivity|].
      cbn [perform]. replace (pl <? sLen s) with false by lia. reflexivity.
  - intros pi [I1 I2] S. cbn [contents dFields] in I1, I2. pose proof (offset_first (str "isp") _ _ I1 I2) as Oi. change (str "isp") with fISP in Oi.
    destruct (short_slice d pc Lg S) as (n & s & I & L). unfold ReplaceLineByCidr. rewrite Oi, Oc.
    rewrite (each_row_crash _ _ n s); [reflexivity| | |assumption].
    + intros k n1 v. destruct (row_line_cases q pc n1 v Hq) as [->|[l ->]]; cbn [bind]; eauto.
    + intros k h. left. unfold row_line. rewrite idx_short by (pose proof (view_short h s); lia). reflexivity.
Qed.
Print Assumptions C30_short_row.

Lemma first_part_unique l : forall p p', first_part l p -> first_part l p' -> p = p'.
Proof.
  unfold first_part, no_byte. induction l as [|c l IH]; intros p p' [N [E|[r E]]] [N' [E'|[r' E']]].
  all: destruct p as [|a p], p' as [|a' p']; cbn [app] in *; try congruence; try reflexivity.
  all: repeat match goal with H : _ :: _ = _ :: _ |- _ => inversion H; subst; clear H end.
  all: try (exfalso; cbn [In] in *; tauto).
  all: f_equal; apply IH; (split; [intros Q; first [apply N; right; exact Q|apply N'; right; exact Q]|eauto]).
Qed.
Lemma line_unique q pc r x l : line_for q pc r x -> line_for q pc r l -> l = x.
Proof.
  unfold line_for. destruct (bytes_eqb _ _); [|congruence]. destruct (q _); [|congruence..].
  intros (p & P & X) (p' & P' & X'). rewrite <- (first_part_unique _ _ _ P P') in X'. clear - X X'. cbn [In] in X, X'.
  assert (forall a b : bytes, a = b -> b = a) as Sy by (intros; congruence).
  destruct X as [[-> ->]|[[I ->]|[[-> ->]|[I ->]]]]; destruct X' as [[E ->]|[[I' ->]|[[E ->]|[I' ->]]]]; try reflexivity; try (exfalso; intuition congruence).
  all: try (repeat match goal with I : _ \/ _ |- _ => destruct I | I : False |- _ => destruct I end; subst; vm_compute in *; congruence).
Qed.
(** C30: a row that has its country but no isp, and a line: replacing lines crashes. *)
Theorem C30_short_isp : forall q ver d pc pi, halts q -> legal d -> column_at (str "country") (dFields (contents d)) pc ->
  column_at (str "isp") (dFields (contents d)) pi ->
  Exists (fun r => length (fvals r) <= pi /\ exists x, line_for q pc r x /\ x <> []) (dIps (contents d)) ->
  ReplaceLineByCidr q ver d = Panic.
Proof.
  intros q ver d pc pi Hq Lg [C1 C2] [I1 I2] S. cbn [contents dFields] in C1, C2, I1, I2.
  pose proof (offset_first (str "country") _ _ C1 C2) as Oc. change (str "country") with fCountry in Oc.
  pose proof (offset_first (str "isp") _ _ I1 I2) as Oi. change (str "isp") with fISP in Oi.
  assert (pc <> pi) as Ne by (intros ->; rewrite C1 in I1; discriminate I1).
  apply Exists_exists in S as (r & I & L & x & X & Nx). unfold contents in I. cbn [dIps] in I. apply in_map_iff in I as ([n s] & <- & I).
  unfold legal in Lg. rewrite Forall_forall in Lg. pose proof (Lg _ I) as [_ B]. cbn [fst snd cidr fvals] in *.
  assert (sLen s <= pi) as Ls by (unfold view in L; rewrite firstn_length in L; lia).
  unfold ReplaceLineByCidr. rewrite Oi, Oc.
  (* the countries do not change *)
  set (body := fun (_ : nat) n v => let* l := row_line q pc n v in Ok (if is_nil l then Keep else Put pi l)).
  enough (forall rows k h, In (n, s) rows -> (forall s', nth pc (view h s') [] = nth pc (view (hHeap d) s') []) -> 
    (forall s', length (view h s') = length (view (hHeap d) s')) -> each_row (fun _ => 0) body k h rows = Panic) as G.
  { rewrite (G (hRows d) 0 (hHeap d) I); auto. }
  induction rows as [|[n1 s1] rows IH]; intros k h J V W; [destruct J|]. cbn [each_row]. unfold body at 1.
  destruct (row_line_cases q pc n1 (view h s1) Hq) as [->|[l El]]; cbn [bind]; [reflexivity|]. rewrite El. cbn [bind].
  destruct J as [E|J].
  - injection E as -> ->. destruct (nth_error (view h s) pc) as [c|] eqn:Ec; [|unfold row_line, idx in El; rewrite Ec in El; discriminate El].
    assert (pc < length (view h s)) as Lp by (apply nth_error_Some; congruence).
    assert (l = x) as ->.
    { rewrite <- line_unique with (1 := X) (l := l); [reflexivity|]. unfold row_line in El. rewrite idx_b in El by assumption. cbn [bind] in El.
      unfold line_for. cbn [fvals cidr]. rewrite V in El. change (str "中国") with china. destruct (bytes_eqb _ china); [|injection El as <-; reflexivity].
      unfold queryLine in El. destruct (q (nIP n)); try discriminate El; injection El as <-; [apply pick_line_spec|reflexivity]. }
    destruct x as [|b x]; [congruence|]. cbn [is_nil perform]. replace (pi <? sLen s) with false by lia. reflexivity.
  - destruct (is_nil l); cbn [perform].
    + cbn [bind]. rewrite IH by assumption. reflexivity.
    + destruct (pi <? sLen s1); [|reflexivity]. cbn [bind]. rewrite IH; [reflexivity|assumption| |].
      * intros s'. rewrite <- V, view_hset. destruct (_ =? _); [|reflexivity]. apply nth_upd_ne. congruence.
      * intros s'. rewrite <- W, view_hset. destruct (_ =? _); [|reflexivity]. apply upd_length.
Qed.
Print Assumptions C30_short_isp.

(** C29: a row without a value for the province, or for the district where there is a district column:
    attaching districts crashes. *)
Theorem C29_short_row : forall grow d pp, legal d -> column_at (str "province") (dFields (contents d)) pp ->
  (short_row pp (contents d) -> AttachDistrict grow d = Panic) /\
  (forall pd, column_at (str "district") (dFields (contents d)) pd -> short_row pd (contents d) -> AttachDistrict grow d = Panic).
Proof.
  intros grow d pp Lg [C1 C2]. cbn [contents dFields] in C1, C2.
  pose proof (offset_first (str "province") _ _ C1 C2) as Oc. change (str "province") with fProvince in Oc.
  assert (offset_of fProvince (match offset_of fDistrict (hFields d) with None => hFields d ++ [fDistrict] | Some _ => hFields d end) = Some pp) as Oc'.
  { destruct (offset_of fDistrict (hFields d)) eqn:El; [assumption|]. rewrite offset_app by assumption. rewrite Oc. reflexivity. }
  assert (forall n s, In (n, s) (hRows d) -> sLen s <= pp \/ (exists pd, offset_of fDistrict (hFields d) = Some pd /\ sLen s <= pd) -> AttachDistrict grow d = Panic) as G.
  { intros n s I L. unfold AttachDistrict. rewrite Oc'. rewrite (each_row_crash _ _ n s); [reflexivity| | |assumption].
    - intros k n1 v. destruct (idx_cases v pp) as [->|[l ->]]; cbn [bind]; eauto.
    - intros k h. destruct L as [L|(pd & -> & L)].
      + left. rewrite idx_short by (pose proof (view_short h s); lia). reflexivity.
      + destruct (idx_cases (view h s) pp) as [->|[l ->]]; cbn [bind]; [auto|]. right. eexists. split; [reflexivity|].
        cbn [perform]. replace (pd <? sLen s) with false by lia. reflexivity. }
  split.
  - intros S. destruct (short_slice d pp Lg S) as (n & s & I & L). eauto.
  - intros pd [L1 L2] S. cbn [contents dFields] in L1, L2. pose proof (offset_first (str "district") _ _ L1 L2) as Ol.
    destruct (short_slice d pd Lg S) as (n & s & I & L). eauto.
Qed.
Print Assumptions C29_short_row.

(** C28: the same for the isp and the asn. *)
Theorem C28_short_row : forall order d pi pa, legal d -> pi <> 0 -> only_column (str "isp") (dFields (contents d)) pi ->
  (short_row pi (contents d) -> TrimAsnIspDup order d = Panic) /\
  (pa <> 0 -> only_column (str "asn") (dFields (contents d)) pa -> short_row pa (contents d) -> TrimAsnIspDup order d = Panic).
Proof.
  intros order d pi pa Lg Npi [C1 C2]. cbn [contents dFields] in C1, C2.
  assert (forall h p rows n s, In (n, s) rows -> sLen s <= pi \/ (p <> 0 /\ sLen s <= p) -> forall m, collect_asn h pi p rows m = Panic) as G.
  { clear. intros h p. induction rows as [|[n1 s1] rows IH]; intros n s I L m; [destruct I|]. cbn [collect_asn].
    destruct I as [E|I].
    - injection E as -> ->. destruct L as [L|[Np L]].
      + rewrite idx_short by (pose proof (view_short h s); lia). reflexivity.
      + destruct (idx_cases (view h s) pi) as [->|[l ->]]; cbn [bind]; [reflexivity|]. replace (p =? 0) with false by lia.
        rewrite idx_short by (pose proof (view_short h s); lia). reflexivity.
    - destruct (idx_cases (view h s1) pi) as [->|[l ->]]; cbn [bind]; [reflexivity|]. destruct (p =? 0) eqn:E0; [apply (IH n s); assumption|].
      destruct (idx_cases (view h s1) p) as [->|[l2 ->]]; cbn [bind]; [reflexivity|]. apply (IH n s); assumption. }
  split.
  - intros S. destruct (short_slice d pi Lg S) as (n & s & I & L). unfold TrimAsnIspDup.
    rewrite (last_index_only fISP _ pi 0 0 C1 C2). cbn [Nat.add]. replace (pi =? 0) with false by lia.
    rewrite (G _ _ _ n s I) by auto. reflexivity.
  - intros Npa [A1 A2] S. cbn [contents dFields] in A1, A2. destruct (short_slice d pa Lg S) as (n & s & I & L). unfold TrimAsnIspDup.
    rewrite (last_index_only fISP _ pi 0 0 C1 C2), (last_index_only fAsn _ pa 0 0 A1 A2). cbn [Nat.add]. replace (pi =? 0) with false by lia.
    rewrite (G _ _ _ n s I) by auto. reflexivity.
Qed.
Print Assumptions C28_short_row.

(** The loops keep the slices legal. *)
Definition grown (h h1 : heap) : Prop := length h <= length h1 /\ forall a, a < length h -> length (arr h1 a) = length (arr h a).
Lemma grown_legal h h1 s : grown h h1 -> legal_slc h s -> legal_slc h1 s.
Proof. intros [G1 G2] [L1 L2]. split; [lia|]. rewrite G2 by assumption. assumption. Qed.
Lemma perform_grown grow h s a h1 s1 : perform grow h s a = Ok (h1, s1) -> legal_slc h s -> grown h h1 /\ legal_slc h1 s1.
Proof.
  intros H L. assert (forall i v, grown h (hset h s i v)) as G.
  { intros i v. split; [rewrite hset_length; lia|]. intros. apply arr_length_hset. }
  destruct a as [|i v|v]; cbn [perform] in H.
  - injection H as <- <-. split; [split; auto|assumption].
  - destruct (i <? sLen s); [|discriminate]. injection H as <- <-. split; [apply G|apply legal_hset; assumption].
  - unfold happend in H. destruct L as [L1 L2]. destruct (Nat.ltb_spec (sLen s) (length (arr h (sArr s)))) as [Lt|Ge]; injection H as <- <-.
    + split; [apply G|]. split; cbn [sArr sLen]; [rewrite hset_length; assumption|]. rewrite arr_length_hset. lia.
    + split; [split; [rewrite app_length; lia|]; intros; rewrite arr_app by assumption; reflexivity|].
      split; cbn [sArr sLen]; [rewrite app_length; cbn; lia|]. rewrite arr_last, app_length. cbn [length].
      rewrite view_length by (split; assumption). lia.
Qed.
Lemma each_row_legal grow body : forall rows k h h' rows', each_row grow body k h rows = Ok (h', rows') ->
  Forall (fun r => legal_slc h (snd r)) rows -> grown h h' /\ Forall (fun r => legal_slc h' (snd r)) rows'.
Proof.
  induction rows as [|[n s] rows IH]; intros k h h' rows' H F; cbn [each_row] in H.
  - injection H as <- <-. split; [split; auto|constructor].
  - inversion F as [|? ? F1 F2]; subst. cbn [snd] in F1. destruct (body k n (view h s)) as [a| | |]; cbn [bind] in H; try discriminate H.
    destruct (perform grow h s a) as [[h1 s1]| | |] eqn:P; cbn [bind] in H; try discriminate H.
    destruct (each_row grow body (S k) h1 rows) as [[h2 r2]| | |] eqn:R; cbn [bind] in H; try discriminate H. injection H as <- <-.
    destruct (perform_grown _ _ _ _ _ _ P F1) as [G L].
    destruct (IH _ _ _ _ R) as [G2 L2].
    { eapply Forall_impl; [|exact F2]. intros r. apply grown_legal. assumption. }
    split; [|constructor; [apply (grown_legal h1); assumption|assumption]].
    destruct G as [Ga Gb], G2 as [Gc Gd]. split; [lia|]. intros a0 Ha. rewrite Gd by lia. auto.
Qed.
Lemma asn_legal grow asnLine ver d d' : legal d -> AttachLineByAsn grow asnLine ver d = Ok d' -> legal d'.
Proof.
  unfold AttachLineByAsn. intros L H. destruct (in_array fAsn (hFields d)); cbn [negb] in H; [|injection H as <-; exact L].
  match type of H with context [each_row ?g ?b ?k ?h ?r] => destruct (each_row g b k h r) as [[h1 rows1]| | |] eqn:E end; cbn [bind] in H; try discriminate H.
  injection H as <-. destruct (each_row_legal _ _ _ _ _ _ _ E L) as [_ R]. exact R.
Qed.

(** C48: attaching lines by asn where some row finds none, and then by network: the second step crashes. *)
Theorem C48_then_by_network : forall grow asnLine ver q ver2 d pc, halts q -> legal d -> rectangular (contents d) ->
  In (str "asn") (dFields (contents d)) -> ~ In (str "line") (dFields (contents d)) ->
  column_at (str "country") (dFields (contents d)) pc ->
  Exists (fun r => assoc (nth 0 (fvals r) []) asnLine = None) (dIps (contents d)) ->
  exists d', AttachLineByAsn grow asnLine ver d = Ok d' /\ AttachLineByCidr grow q ver2 d' = Panic.
Proof.
  intros grow asnLine ver q ver2 d pc Hq Lg Rc HA HL [C1 C2] S.
  destruct (C48_first_column_used grow asnLine ver d Lg Rc HA HL) as (d' & E & F & R). exists d'. split; [assumption|]. pose proof (asn_legal _ _ _ _ _ Lg E) as Lg'.
  assert (column_at (str "country") (dFields (contents d')) pc) as C'.
  { rewrite F. assert (pc < length (dFields (contents d))) by (apply nth_error_Some; congruence).
    split; [rewrite nth_error_app1 by assumption; assumption|]. intros j Hj. rewrite nth_error_app1 by lia. auto. }
  destruct (C30_short_row grow q ver2 d' pc Hq Lg' C') as (_ & H & _). apply (H (length (dFields (contents d)))).
  - rewrite F. split; [rewrite nth_error_app2, Nat.sub_diag by lia; reflexivity|]. intros j Hj. rewrite nth_error_app1 by assumption.
    intros Q. apply HL. eapply nth_error_In; eassumption.
  - unfold short_row. apply Exists_exists in S as (r & I & N). apply Exists_exists.
    destruct (In_nth_error _ _ I) as [i Hi].
    assert (exists r', nth_error (dIps (contents d')) i = Some r' /\ cidr r' = cidr r /\ fvals r' = fvals r) as (r' & Hr' & _ & V).
    { clear - R Hi N. revert i Hi. induction R as [|a b l l' [H1 H2] R IH]; intros [|i] Hi; try discriminate.
      - injection Hi as ->. exists b. split; [reflexivity|]. split; [assumption|]. rewrite H2, N. reflexivity.
      - apply IH; assumption. }
    exists r'. split; [eapply nth_error_In; eassumption|]. rewrite V. unfold rectangular in Rc. rewrite Forall_forall in Rc. rewrite (Rc _ I). lia.
Qed.
Print Assumptions C48_then_by_network.

(** Cases: a dataset without any value; the dataset of C48_case with another asn. *)
Definition short_example : HData := mkH [str "country"; str "province"; str "isp"; str "asn"; str "line"; str "district"]
  (mkVersion 1 1 0 [] [] []) [(mkNet [x01;x00;x00;x00] [xff;xff;xff;x00], mkSlc 0 0)] [[]].
Example C30_short_case : halts line_db /\ legal short_example /\ short_row 0 (contents short_example) /\
  column_at (str "country") (dFields (contents short_example)) 0 /\ column_at (str "isp") (dFields (contents short_example)) 2.
Proof.
  split; [intros ip; unfold line_db; repeat match goal with |- context [if ?c then _ else _] => destruct c end; discriminate|].
  split; [repeat constructor|]. split; [constructor; cbn; lia|].
  split; (split; [reflexivity|]; intros [|[|j]] Hj; try lia; cbn; try discriminate).
Qed.
Example C48_then_case : let d := mkH [str "country"; str "asn"] (mkVersion 1 1 0 [] [] []) [(mkNet [x01;x00;x00;x00] [xff;xff;xff;x00], mkSlc 0 2)]
               [[str "中国"; str "4134"]] in
  legal d /\ rectangular (contents d) /\ Exists (fun r => assoc (nth 0 (fvals r) []) [(str "4134", str "电信")] = None) (dIps (contents d)) /\
  match AttachLineByAsn (fun n => n) [(str "4134", str "电信")] [] d with Ok d' => AttachLineByCidr (fun n => n) line_db [] d' = Panic | _ => False end.
Proof. split; [repeat constructor|]. split; [repeat constructor|]. split; [constructor; reflexivity|]. vm_compute. reflexivity. Qed.

(** Property theorems C70: the files at any moment of a run of the converter, on a disk that
    may be full. *)
From Verif Require Import Base NetIP IpNet Spec Inf Ipdb SpecIpdb Export PropsIpdb Tables Operate NetText Plain Memip AwDecode AwTree Facade PropsFacade PropsFacade2 PropsFacade3 PropsConvert Convert PropsConvert3 PropsConvert4 Writes.
Open Scope nat_scope.

(* ---------- one open file ---------- *)
(** [c] was written to a file with room for [r] bytes. *)
Definition at_ (r : nat) (c : bytes) (k : sink) : Prop := kHolds k = firstn r c /\ kRoom k = r - length c.
Lemma at_start r : at_ r [] (mkSink [] r).
Proof. split; cbn; [destruct r; reflexivity|lia]. Qed.
Lemma firstn_more (r : nat) (c b : bytes) : firstn r c ++ firstn (r - length c) b = firstn r (c ++ b).
Proof. rewrite firstn_app. reflexivity. Qed.
Lemma at_wr r c k b : at_ r c k -> at_ r (c ++ b) (fst (wr k b)) /\ snd (wr k b) = (length b <=? r - length c).
Proof.
  intros [H1 H2]. unfold wr. cbn [fst snd]. rewrite H2. split; [|reflexivity]. split; cbn [kHolds kRoom].
  - rewrite H1. apply firstn_more.
  - rewrite app_length. lia.
Qed.
Lemma at_over r c k more : at_ r c k -> r < length c -> kHolds k = firstn r (c ++ more).
Proof. intros [H _] L. rewrite H, firstn_app. replace (r - length c) with 0 by lia. rewrite app_nil_r. reflexivity. Qed.

Lemma SaveTo_spec marshal w r : let '(k, err) := SaveTo marshal w (mkSink [] r) in
  kHolds k = firstn r (Save marshal w) /\ err = (if length (Save marshal w) <=? r then None else Some ErrWrite).
Proof.
  unfold SaveTo, Save. set (a := IntToBinaryBE _ 32 ++ marshal (save_meta w)).
  replace (IntToBinaryBE (Z.of_nat (length (marshal (save_meta w)))) 32 ++ marshal (save_meta w) ++ node_chunk (wNode w) ++ wChunk w)
    with (a ++ node_chunk (wNode w) ++ wChunk w) by (unfold a; rewrite <- !app_assoc; reflexivity).
  set (b := node_chunk _). set (c := wChunk w).
  destruct (at_wr r [] _ a (at_start r)) as [A1 B1]. destruct (wr (mkSink [] r) a) as [k1 ok1]. cbn [fst snd app length] in *. subst ok1.
  rewrite !app_length. destruct (Nat.leb_spec (length a) (r - 0)) as [L1|L1]; cbn [negb].
  2:{ split; [apply at_over; [exact A1|lia]|]. destruct (Nat.leb_spec (length a + (length b + length c)) r); [lia|reflexivity]. }
  destruct (at_wr r a _ b A1) as [A2 B2]. destruct (wr k1 b) as [k2 ok2]. cbn [fst snd] in *. subst ok2.
  destruct (Nat.leb_spec (length b) (r - length a)) as [L2|L2]; cbn [negb].
  2:{ rewrite app_assoc. split; [apply at_over; [exact A2|rewrite app_length; lia]|].
      destruct (Nat.leb_spec (length a + (length b + length c)) r); [lia|reflexivity]. }
  destruct (at_wr r (a ++ b) _ c A2) as [A3 B3]. destruct (wr k2 c) as [k3 ok3]. cbn [fst snd] in *. subst ok3. rewrite app_length.
  destruct A3 as [A3 _]. rewrite <- app_assoc in A3. split; [exact A3|].
  destruct (Nat.leb_spec (length c) (r - (length a + length b))); destruct (Nat.leb_spec (length a + (length b + length c)) r); cbn [negb]; try reflexivity; lia.
Qed.
Lemma plain_rows_spec r : forall rows h c k, at_ r c k -> let '(k', h', err) := plain_rows_to h rows k in
  let '(h2, text) := Plain.pack_rows h rows in
  kHolds k' = firstn r (c ++ text) /\
  match err with
  | None => h' = h2 /\ (rows = [] \/ length (c ++ text) <= r)
  | Some e => e = ErrWrite /\ r < length (c ++ text)
  end.
Proof.
  induction rows as [|[n s] rows IH]; intros h c k A; cbn [plain_rows_to Plain.pack_rows].
  { rewrite app_nil_r. split; [apply A|auto]. }
  set (line := net_string n ++ _). set (h1 := comma_cells h s 0 (sLen s)) in *.
  destruct (at_wr r c k line A) as [A1 B1]. destruct (wr k line) as [k1 ok1]. cbn [fst snd] in *. subst ok1.
  destruct (Nat.leb_spec (length line) (r - length c)) as [L|L]; cbn [negb].
  - specialize (IH h1 (c ++ line) k1 A1). destruct (plain_rows_to h1 rows k1) as [[k' h'] err]. destruct (Plain.pack_rows h1 rows) as [h2 text] eqn:Er.
    replace (net_string n ++ x09 :: join x2c (view h1 s) ++ [x0a]) with line by reflexivity.
    rewrite <- app_assoc in IH. destruct IH as [IH1 IH2]. split; [exact IH1|]. destruct err as [e|]; [exact IH2|]. destruct IH2 as [-> IH2]. split; [reflexivity|].
    right. destruct IH2 as [->|IH2]; [|exact IH2]. cbn in Er. injection Er as <- <-. rewrite app_nil_r, app_length.
    assert (0 < length line) by (unfold line; rewrite !app_length; cbn; lia). lia.
  - destruct (Plain.pack_rows h1 rows) as [h2 text]. replace (net_string n ++ x09 :: join x2c (view h1 s) ++ [x0a]) with line by reflexivity.
    assert (r < length (c ++ line)) as L2 by (rewrite app_length; assert (0 < length line) by (unfold line; rewrite !app_length; cbn; lia); lia).
    split; [rewrite app_assoc; apply at_over; [exact A1|exact L2]|]. split; [reflexivity|]. rewrite app_assoc, app_length. lia.
Qed.
Lemma mem_lines_spec r v4 : forall l c k, at_ r c k -> let '(k', x) := mem_lines_to v4 l k in
  match mem_lines v4 l with
  | Ok text => at_ r (c ++ text) k' /\ x = Ok tt
  | Err e => x = Err e
  | Panic => x = Panic
  | OutOfFuel => x = OutOfFuel
  end.
Proof.
  induction l as [|y l IH]; intros c k A; cbn [mem_lines_to mem_lines]; [rewrite app_nil_r; auto|].
  destruct (mem_line v4 y) as [line| | |]; cbn [bind]; try reflexivity.
  destruct (at_wr r c k line A) as [A1 _]. specialize (IH _ _ A1). destruct (mem_lines_to v4 l _) as [k' x].
  destruct (mem_lines v4 l) as [text| | |]; cbn [bind]; try exact IH. rewrite app_assoc. exact IH.
Qed.

(* ---------- one output ---------- *)
(** What was written instead of [b], and what was reported, on a disk with room for [r] bytes. *)
Definition shows_full (ext : bytes) (d : HData) (r : nat) (b : bytes) (err : option error) : Prop :=
  match err with
  | None => length b <= r \/ ext = str ".memip" \/ ext = str ".scan" /\ hRows d = []
  | Some e => e = ErrWrite /\ r < length b
  end.
Lemma packer_spec E ext d r f : assoc ext (packersTo E) = Some f -> let '(k, x) := f d (mkSink [] r) in
  match PackBytes (converterFormats E) ext d with
  | Ok (b, d') => kHolds k = firstn r b /\ exists d'' err, x = Ok (d'', err) /\ (err = None -> d'' = d') /\ shows_full ext d r b err /\
      (ext = str ".memip" -> err = None)
  | Err e => False
  | Panic => x = Panic /\ (ext <> str ".memip" -> kHolds k = [])
  | OutOfFuel => x = OutOfFuel /\ (ext <> str ".memip" -> kHolds k = [])
  end.
Proof.
  intros Hf. unfold PackBytes, GetPackFormat, converterFormats, init_plain, init_memip, init_ipdb, init_awdb.
  cbn [RegisterDumpFormat RegisterQueryFormat RegisterPackFormat packFormats noFormats assoc]. unfold packersTo in Hf. cbn [assoc] in Hf.
  destruct (bytes_eqb_spec (str ".scan") ext) as [Ex|_].
  { injection Hf as <-. unfold plain_to.
    set (a := str "#### scan dump " ++ _). set (b := str "#### " ++ jVer E (hVersion d) ++ [x0a]). set (c := str "#### " ++ join x2c (hFields d) ++ [x0a]).
    destruct (at_wr r [] _ a (at_start r)) as [A1 _]. destruct (at_wr r _ _ b A1) as [A2 _]. destruct (at_wr r _ _ c A2) as [A3 _].
    pose proof (plain_rows_spec r (hRows d) (hHeap d) _ _ A3) as P. destruct (plain_rows_to _ _ _) as [[k h] err]. unfold Plain.pack.
    destruct (Plain.pack_rows (hHeap d) (hRows d)) as [h2 text]. destruct P as [P1 P2].
    replace (str "#### scan dump " ++ eClock E ++ str " ####" ++ [x0a] ++ str "#### " ++ jVer E (hVersion d) ++ [x0a] ++ str "#### " ++ join x2c (hFields d) ++ [x0a] ++ text)
      with ((([] ++ a) ++ b) ++ c ++ text) by (unfold a, b, c; cbn [app]; rewrite <- !app_assoc; reflexivity).
    rewrite <- (app_assoc _ c text) in P1, P2. split; [exact P1|]. eexists _, err. split; [reflexivity|]. split; [|split].
    - intros ->. destruct P2 as [-> _]. reflexivity.
    - unfold shows_full. destruct err as [e|]; [exact P2|]. destruct P2 as [_ [P2|P2]]; auto.
    - intros X. rewrite <- Ex in X. discriminate X. }
  destruct (bytes_eqb_spec (str ".memip") ext) as [Ex|_].
  { injection Hf as <-. unfold memip_to, mpack. destruct (dIps (contents d)) as [|row rest].
    { cbn [bind]. split; [reflexivity|]. intros N. reflexivity. }
    destruct (covertValues _ _) as [v| | |] eqn:Ev; cbn [bind]; [|exfalso; eapply covertValues_ne; exact Ev|split; [reflexivity|reflexivity]|split; [reflexivity|reflexivity]].
    destruct (NewRange _) as [rg| | |] eqn:Er; cbn [bind]; [|exfalso; eapply NewRange_ne; exact Er|split; [reflexivity|reflexivity]|split; [reflexivity|reflexivity]].
    destruct (mem_merge _ _ _ _) as [l| | |] eqn:Em; cbn [bind]; [|exfalso; eapply mem_merge_ne; exact Em|split; [reflexivity|reflexivity]|split; [reflexivity|reflexivity]].
    pose proof (mem_lines_spec r (vIpType (dVersion (contents d)) =? 1)%Z l [] _ (at_start r)) as M. destruct (mem_lines_to _ _ _) as [k x].
    destruct (mem_lines _ l) as [text|e| |] eqn:El; cbn [bind].
    - destruct M as [[M _] ->]. split; [exact M|]. exists d, None. split; [reflexivity|]. split; [reflexivity|]. split; [|reflexivity]. right. left. auto.
    - eapply mem_lines_ne; exact El.
    - subst x. split; [reflexivity|]. intros N. congruence.
    - subst x. split; [reflexivity|]. intros N. congruence. }
  destruct (bytes_eqb_spec (str ".ipdb") ext) as [Ex|_]; [|discriminate Hf].
  injection Hf as <-. unfold ipdb_to, packH. destruct (insert_allH _ _ _) as [[w h]|e| |] eqn:Ei; cbn [bind].
  - pose proof (SaveTo_spec (jMeta E) w r) as S. destruct (SaveTo _ _ _) as [k err]. destruct S as [S1 S2]. split; [exact S1|].
    eexists _, err. split; [reflexivity|]. split; [reflexivity|]. split; [|intros X; rewrite <- Ex in X; discriminate X].
    unfold shows_full. rewrite S2. destruct (Nat.leb_spec (length (Save (jMeta E) w)) r); auto.
  - eapply (packH_ne (jMeta E) (eNow E) d e). unfold packH. rewrite Ei. reflexivity.
  - split; [reflexivity|reflexivity].
  - split; [reflexivity|reflexivity].
Qed.
Lemma packersTo_none E ext : assoc ext (packersTo E) = None -> forall d, PackBytes (converterFormats E) ext d = Err ErrUnsupportedFormat.
Proof.
  intros H d. unfold PackBytes, GetPackFormat, converterFormats, init_plain, init_memip, init_ipdb, init_awdb.
  cbn [RegisterDumpFormat RegisterQueryFormat RegisterPackFormat packFormats noFormats assoc]. unfold packersTo in H. cbn [assoc] in H.
  destruct (bytes_eqb _ ext); [discriminate|]. destruct (bytes_eqb _ ext); [discriminate|]. destruct (bytes_eqb _ ext); [discriminate|]. reflexivity.
Qed.

(* ---------- effects ---------- *)
Lemma set_same fs p b : set_file fs p b p = Some b.
Proof. unfold set_file. rewrite bytes_eqb_refl. reflexivity. Qed.
Lemma set_other fs p b q : p <> q -> set_file fs p b q = fs q.
Proof. intros N. unfold set_file. destruct (bytes_eqb_spec p q); [congruence|reflexivity]. Qed.
Lemma effects_put o : forall c fs have, fs o = Some have -> effects fs (map (Put o) c) o = Some (have ++ c).
Proof.
  unfold effects. induction c as [|b c IH]; intros fs have H; cbn [map fold_left]; [rewrite app_nil_r; exact H|].
  rewrite (IH _ (have ++ [b])); [rewrite <- app_assoc; reflexivity|]. cbn [effect1]. rewrite H. apply set_same.
Qed.
Lemma effects_put_other o p : o <> p -> forall c fs, effects fs (map (Put o) c) p = fs p.
Proof.
  intros N. unfold effects. induction c as [|b c IH]; intros fs; cbn [map fold_left]; [reflexivity|]. rewrite IH. cbn [effect1]. apply set_other, N.
Qed.
Lemma effects_file o fs c k p : effects fs (firstn k (Create o :: map (Put o) c)) p =
  if bytes_eqb o p then match k with O => fs o | S k => Some (firstn k c) end else fs p.
Proof.
  destruct k as [|k]; cbn [firstn].
  - cbn. destruct (bytes_eqb_spec o p) as [->|]; reflexivity.
  - change (effects fs (Create o :: firstn k (map (Put o) c))) with (effects (set_file fs o []) (firstn k (map (Put o) c))).
    rewrite firstn_map. destruct (bytes_eqb_spec o p) as [<-|N].
    + rewrite (effects_put o _ _ []); [reflexivity|apply set_same].
    + rewrite effects_put_other by exact N. apply set_other, N.
Qed.
Lemma effects_app fs a b : effects fs (a ++ b) = effects (effects fs a) b.
Proof. apply fold_left_app. Qed.
Lemma effects_ext : forall l fs fs', (forall p, fs p = fs' p) -> forall p, effects fs l p = effects fs' l p.
Proof.
  unfold effects. induction l as [|e l IH]; intros fs fs' H p; cbn [fold_left]; [apply H|]. apply IH. intros q.
  destruct e as [o|o b]; cbn [effect1]; unfold set_file; [|rewrite H]; destruct (bytes_eqb o q); auto.
Qed.

(* ---------- a run ---------- *)
(** The output is complete, or cut at the end of the disk without a report: only a .memip
    file, or a .scan file without rows. *)
Definition written (E : env) (can : bytes -> bool) (room : bytes -> nat) (d : HData) (fs : files) (o : bytes) : Prop :=
  accepted can o /\ exists b, PackBytes (converterFormats E) (path_ext o) d = Ok (b, d) /\ fs o = Some (firstn (room o) b) /\
    (length b <= room o \/ path_ext o = str ".memip" \/ path_ext o = str ".scan" /\ hRows d = []).
(** The output is as before the run, or holds the beginning of what belongs there. *)
Definition begun (E : env) (room : bytes -> nat) (d : HData) (fs fsk : files) (o : bytes) : Prop :=
  fsk o = fs o \/ exists c, fsk o = Some c /\
    (forall b d', PackBytes (converterFormats E) (path_ext o) d = Ok (b, d') -> exists n, n <= room o /\ c = firstn n b) /\
    ((forall b d', PackBytes (converterFormats E) (path_ext o) d <> Ok (b, d')) -> path_ext o <> str ".memip" -> c = []).

Lemma firstn_app_le {A} (k : nat) (a b : list A) : k <= length a -> firstn k (a ++ b) = firstn k a.
Proof. intros H. rewrite firstn_app. replace (k - length a) with 0 by lia. apply app_nil_r. Qed.
Lemma firstn_app_ge {A} (k : nat) (a b : list A) : length a <= k -> firstn k (a ++ b) = a ++ firstn (k - length a) b.
Proof. intros H. rewrite firstn_app, firstn_all2 by exact H. reflexivity. Qed.

Lemma write_steps E can room d : plain_columns (hFields d) -> no_commas (contents d) -> forall outputs fs k es y,
  NoDup outputs -> write_outputsE E can room outputs d = (es, y) ->
  let fsk := effects fs (firstn k es) in
  (forall p, ~ In p outputs -> fsk p = fs p) /\
  exists done rest, outputs = done ++ rest /\ Forall (written E can room d fsk) done /\
    match rest with
    | [] => True
    | o :: r => begun E room d fs fsk o /\ (forall p, In p r -> fsk p = fs p)
    end /\
    (y = Ok None -> length es <= k -> rest = []).
Proof.
  intros HC HN. induction outputs as [|o outputs IH]; intros fs k es y ND H fsk; cbn [write_outputsE] in H.
  { injection H as <- <-. unfold fsk. rewrite firstn_nil. split; [reflexivity|]. exists [], []. repeat split; auto. }
  inversion ND as [|? ? Nin ND']; subst. unfold PackFileE in H.
  assert (forall c, exists done rest, o :: outputs = done ++ rest /\ Forall (written E can room d c) done /\ rest = o :: outputs) as Stop.
  { intros c. exists [], (o :: outputs). repeat split; auto. }
  destruct (can o) eqn:Co; cbn [negb] in H.
  2:{ injection H as <- <-. unfold fsk. rewrite firstn_nil. split; [reflexivity|]. exists [], (o :: outputs). split; [reflexivity|]. split; [constructor|].
      split; [split; [left; reflexivity|reflexivity]|]. intros X. discriminate X. }
  destruct (assoc (path_ext o) (packersTo E)) as [f|] eqn:Ef.
  2:{ injection H as <- <-. pose proof (packersTo_none E _ Ef d) as PN. split.
      - intros p Np. unfold fsk. change [Create o] with (Create o :: map (Put o) []). rewrite effects_file. destruct (bytes_eqb_spec o p) as [->|]; [exfalso; apply Np; left; reflexivity|reflexivity].
      - exists [], (o :: outputs). split; [reflexivity|]. split; [constructor|]. split; [|intros X; discriminate X].
        assert (forall p, fsk p = if bytes_eqb o p then match k with O => fs o | S k => Some (firstn k []) end else fs p) as F by (intros p; unfold fsk; change [Create o] with (Create o :: map (Put o) []); apply effects_file).
        split.
        + unfold begun. rewrite F, bytes_eqb_refl. destruct k as [|k]; [left; reflexivity|]. right. rewrite firstn_nil. exists []. split; [reflexivity|].
          split; [intros b d' X; rewrite PN in X; discriminate X|reflexivity].
        + intros p Ip. rewrite F. destruct (bytes_eqb_spec o p) as [<-|]; [contradiction|reflexivity]. }
  pose proof (packer_spec E (path_ext o) d (room o) f Ef) as PS. destruct (f d (mkSink [] (room o))) as [s x]. set (c := kHolds s) in *.
  set (es1 := Create o :: map (Put o) c) in *.
  assert (length es1 = S (length c)) as Les by (unfold es1; cbn [length]; rewrite map_length; reflexivity).
  (* the state while this output is written *)
  assert (forall m es, m <= length es1 -> firstn m es = firstn m es1 -> let fsm := effects fs (firstn m es) in
    (forall p, p <> o -> fsm p = fs p) /\ begun E room d fs fsm o) as Part.
  { intros m es' Hm -> fsm. assert (forall p, fsm p = if bytes_eqb o p then match m with O => fs o | S m => Some (firstn m c) end else fs p) as F by (intros p; apply effects_file).
    split; [intros p Np; rewrite F; destruct (bytes_eqb_spec o p); [congruence|reflexivity]|].
    unfold begun. rewrite F, bytes_eqb_refl. destruct m as [|m]; [left; reflexivity|]. right. exists (firstn m c). split; [reflexivity|].
    destruct (PackBytes (converterFormats E) (path_ext o) d) as [[b d']|e| |].
    - destruct PS as [Pc _]. split; [|intros X; exfalso; eapply X; reflexivity]. intros b' d'' X. injection X as <- <-. rewrite Pc, firstn_firstn. exists (Nat.min m (room o)). split; [lia|reflexivity].
    - destruct PS.
    - destruct PS as [_ Pc]. split; [intros b d' X; discriminate X|]. intros _ Nm. rewrite (Pc Nm). apply firstn_nil.
    - destruct PS as [_ Pc]. split; [intros b d' X; discriminate X|]. intros _ Nm. rewrite (Pc Nm). apply firstn_nil. }
  (* when the run ends here *)
  assert (forall y', es = es1 -> y = y' -> y' <> Ok None -> (forall p, ~ In p (o :: outputs) -> fsk p = fs p) /\
    exists done rest, o :: outputs = done ++ rest /\ Forall (written E can room d fsk) done /\
    match rest with [] => True | o :: r => begun E room d fs fsk o /\ (forall p, In p r -> fsk p = fs p) end /\
    (y = Ok None -> length es <= k -> rest = [])) as End.
  { intros y' -> -> Ny. assert (firstn k es1 = firstn (Nat.min k (length es1)) es1) as Ek.
    { destruct (Nat.min_spec k (length es1)) as [[L ->]|[L ->]]; [reflexivity|]. rewrite !firstn_all2 by lia. reflexivity. }
    destruct (Part (Nat.min k (length es1)) es1 ltac:(lia) eq_refl) as [P1 P2]. rewrite <- Ek in P1, P2. fold fsk in P1, P2. split.
    - intros p Np. apply P1. intros ->. apply Np. left. reflexivity.
    - exists [], (o :: outputs). split; [reflexivity|]. split; [constructor|]. split; [split; [exact P2|]|intros X; contradiction].
      intros p Ip. apply P1. intros ->. contradiction. }
  destruct (PackBytes (converterFormats E) (path_ext o) d) as [[b d']|e| |] eqn:PB.
  2:{ destruct PS. }
  2:{ destruct PS as [-> _]. injection H as <- <-. apply (End Panic); [reflexivity|reflexivity|discriminate]. }
  2:{ destruct PS as [-> _]. injection H as <- <-. apply (End OutOfFuel); [reflexivity|reflexivity|discriminate]. }
  destruct PS as [Pc (d'' & err & -> & Pd & Ps & _)]. destruct err as [e|].
  { injection H as <- <-. apply (End (Ok (Some e))); [reflexivity|reflexivity|discriminate]. }
  specialize (Pd eq_refl). subst d''. pose proof (PackBytes_keeps _ _ _ _ _ HC HN PB) as ->.
  destruct (write_outputsE E can room outputs d) as [es2 y2] eqn:W2. assert (es = es1 ++ es2 /\ y = y2) as [-> ->] by (split; congruence). clear H.
  destruct (le_lt_dec (length es1) k) as [Hk|Hk].
  - (* this output is complete *)
    set (fs1 := effects fs es1). assert (fsk = effects fs1 (firstn (k - length es1) es2)) as Efk by (unfold fsk; rewrite firstn_app_ge by exact Hk; apply effects_app).
    destruct (IH fs1 (k - length es1) es2 y2 ND' eq_refl) as [K (done & rest & -> & Dn & R & Fin)]. rewrite <- Efk in *.
    assert (forall p, fs1 p = if bytes_eqb o p then Some c else fs p) as F1.
    { intros p. unfold fs1. rewrite <- (firstn_all es1), Les. unfold es1. rewrite effects_file, firstn_all. reflexivity. }
    assert (forall p, p <> o -> fs1 p = fs p) as F2 by (intros p Np; rewrite F1; destruct (bytes_eqb_spec o p); [congruence|reflexivity]).
    split.
    + intros p Np. cbn [In] in Np. rewrite K by tauto. apply F2. intros ->. apply Np. left. reflexivity.
    + exists (o :: done), rest. split; [reflexivity|]. split; [|split].
      * constructor; [|exact Dn]. split.
        { split; [exact Co|]. apply (proj1 (proj2 (proj2 (C42_programs E (path_ext o))))). intros G. unfold PackBytes in PB. rewrite G in PB. discriminate PB. }
        exists b. split; [exact PB|]. split; [|exact Ps]. rewrite K by exact Nin. rewrite F1, bytes_eqb_refl, Pc. reflexivity.
      * destruct rest as [|o' r]; [exact I|]. destruct R as [R1 R2]. split.
        -- unfold begun in *. destruct R1 as [R1|R1]; [left|right; exact R1]. rewrite R1. apply F2. intros ->. apply Nin. apply in_or_app. right. left. reflexivity.
        -- intros p Ip. rewrite R2 by exact Ip. apply F2. intros ->. apply Nin. apply in_or_app. right. right. exact Ip.
      * intros Ey Hl. apply Fin; [exact Ey|]. rewrite app_length in Hl. lia.
  - destruct (Part k (es1 ++ es2) ltac:(lia) ltac:(apply firstn_app_le; lia)) as [P1 P2]. fold fsk in P1, P2. split.
    + intros p Np. apply P1. intros ->. apply Np. left. reflexivity.
    + exists [], (o :: outputs). split; [reflexivity|]. split; [constructor|]. split; [split; [exact P2|]|].
      * intros p Ip. apply P1. intros ->. contradiction.
      * intros _ X. rewrite app_length in X. lia.
Qed.

(** On a disk with enough room the outputs end as in Convert.v. *)
Lemma write_enough E can : forall outputs fs d, exists N, forall room, (forall p, N <= room p) ->
  let '(es, y) := write_outputsE E can room outputs d in
  match write_outputs E can outputs fs d with
  | Ok (fs', err) => y = Ok err /\ forall p, effects fs es p = fs' p
  | Err e => False
  | Panic => y = Panic
  | OutOfFuel => y = OutOfFuel
  end.
Proof.
  induction outputs as [|o outputs IH]; intros fs d.
  { exists 0. intros room _. cbn. auto. }
  cbn [write_outputs write_outputsE]. unfold PackFile, PackFileE. destruct (can o); cbn [negb bind].
  2:{ exists 0. intros room _. cbn. auto. }
  destruct (assoc (path_ext o) (packersTo E)) as [f|] eqn:Ef.
  2:{ exists 0. intros room _. rewrite (packersTo_none E _ Ef d). cbn [bind]. split; [reflexivity|reflexivity]. }
  destruct (PackBytes (converterFormats E) (path_ext o) d) as [[b d']|e| |] eqn:PB; cbn [bind].
  - destruct (IH (set_file fs o b) d') as [N HN]. exists (Nat.max N (length b)). intros room Hr.
    pose proof (packer_spec E (path_ext o) d (room o) f Ef) as PS. destruct (f d (mkSink [] (room o))) as [s x]. rewrite PB in PS.
    destruct PS as [Pc (d'' & err & -> & Pd & Ps & _)]. specialize (Hr o) as Ho. destruct err as [e|]; [unfold shows_full in Ps; lia|].
    specialize (Pd eq_refl). subst d''. specialize (HN room ltac:(intros p; specialize (Hr p); lia)).
    destruct (write_outputsE E can room outputs d') as [es2 y2]. rewrite firstn_all2 in Pc by lia.
    destruct (write_outputs E can outputs (set_file fs o b) d') as [[fs' err]|e| |]; try exact HN.
    destruct HN as [-> HN]. split; [reflexivity|]. intros p. rewrite <- HN. rewrite Pc.
    change (Create o :: map (Put o) b ++ es2) with ((Create o :: map (Put o) b) ++ es2). rewrite effects_app.
    apply effects_ext. intros q. rewrite <- (firstn_all (Create o :: map (Put o) b)). rewrite effects_file. cbn [length]. rewrite map_length, firstn_all. unfold set_file. reflexivity.
  - exfalso. pose proof (packer_spec E (path_ext o) d 0 f Ef) as PS. rewrite PB in PS. destruct (f d (mkSink [] 0)). exact PS.
  - exists 0. intros room _. pose proof (packer_spec E (path_ext o) d (room o) f Ef) as PS. destruct (f d (mkSink [] (room o))) as [s x]. rewrite PB in PS. destruct PS as [-> _]. reflexivity.
  - exists 0. intros room _. pose proof (packer_spec E (path_ext o) d (room o) f Ef) as PS. destruct (f d (mkSink [] (room o))) as [s x]. rewrite PB in PS. destruct PS as [-> _]. reflexivity.
Qed.

Lemma run_data_run E ipList order grow can room fs input output rule line replace d :
  run_data E ipList order grow fs input rule line replace d ->
  converterRun E ipList order grow can room fs input output rule line replace = write_outputsE E can room (split x2c output) d.
Proof.
  intros (q & Hq & D). unfold converterRun, line_db. destruct line as [|c line]; cbn [is_nil] in Hq.
  - subst q. rewrite D. reflexivity.
  - destruct Hq as (db & content & F & N & ->). unfold NewDb. rewrite F, N. cbn [bind]. rewrite D. reflexivity.
Qed.

(** C70: with enough room a run of the converter ends as Convert.v (C59) says. *)
Theorem C70_enough_room : forall E ipList order grow can fs input output rule line replace,
  exists N, forall room, (forall p, N <= room p) ->
    let '(es, y) := converterRun E ipList order grow can room fs input output rule line replace in
    match converterMain E ipList order grow can fs input output rule line replace with
    | Ok (fs', err) => y = Ok err /\ forall p, effects fs es p = fs' p
    | Err e => False
    | Panic => y = Panic
    | OutOfFuel => y = OutOfFuel
    end.
Proof.
  intros. unfold converterRun, converterMain. destruct (line_db _ _ _ _ _) as [q|e| |].
  - destruct (DumpFile _ _ _ _ _) as [d|e| |]; [apply write_enough| | |]; exists 0; intros room _; auto.
  - exists 0. intros room _. auto.
  - exists 0. intros room _. auto.
  - exists 0. intros room _. auto.
Qed.
Print Assumptions C70_enough_room.

(** C70: if there is no dataset to convert, no file is touched. *)
Theorem C70_nothing : forall E ipList order grow can room fs input output rule line replace,
  (forall d, ~ run_data E ipList order grow fs input rule line replace d) ->
  fst (converterRun E ipList order grow can room fs input output rule line replace) = [].
Proof.
  intros E il order grow can room fs input output rule line replace H. unfold converterRun, line_db, run_data in *.
  destruct line as [|c line]; cbn [is_nil] in H.
  - destruct (DumpFile _ _ _ _ _) as [d|e| |] eqn:D; try reflexivity. exfalso. apply (H d). exists None. auto.
  - unfold NewDb. destruct (fs (c :: line)) as [content|] eqn:F; cbn [bind]; [|reflexivity].
    destruct (NewDbFromBytes _ _ _ content) as [db|e| |] eqn:N; cbn [bind]; try reflexivity.
    destruct (DumpFile _ _ _ _ _) as [d|e| |] eqn:D; try reflexivity. exfalso. apply (H d). exists (Some (db, replace)). split; [exists db, content; auto|exact D].
Qed.
Print Assumptions C70_nothing.

(** C70: the process may be killed, or crash, after any number [k] of steps, and any output
    may run out of room.  Files that are no outputs are as before.  The outputs are, in their
    order: some that are written, then at most one that holds the beginning of what belongs
    there (or is untouched), then untouched ones. *)
Theorem C70_any_moment : forall E ipList order grow can room fs input output rule line replace d k,
  run_data E ipList order grow fs input rule line replace d -> plain_columns (hFields d) -> no_commas (contents d) ->
  NoDup (split x2c output) ->
  let fsk := effects fs (firstn k (fst (converterRun E ipList order grow can room fs input output rule line replace))) in
  (forall p, ~ In p (split x2c output) -> fsk p = fs p) /\
  exists done rest, split x2c output = done ++ rest /\ Forall (written E can room d fsk) done /\
    match rest with
    | [] => True
    | o :: untouched => begun E room d fs fsk o /\ (forall p, In p untouched -> fsk p = fs p)
    end.
Proof.
  intros E il order grow can room fs input output rule line replace d k R HC HN ND. cbv zeta.
  rewrite (run_data_run _ _ _ _ can room _ _ output _ _ _ _ R). destruct (write_outputsE E can room (split x2c output) d) as [es y] eqn:W. cbn [fst].
  destruct (write_steps E can room d HC HN _ fs k es y ND W) as [A (done & rest & B & C & D & _)]. split; [exact A|]. exists done, rest. auto.
Qed.
Print Assumptions C70_any_moment.

(** C70: a run that ends without an error has written every output; one that does not fit on
    the disk is reported, unless it is a .memip file or a .scan file without rows. *)
Theorem C70_no_error : forall E ipList order grow can room fs input output rule line replace es,
  converterRun E ipList order grow can room fs input output rule line replace = (es, Ok None) ->
  NoDup (split x2c output) ->
  exists d, run_data E ipList order grow fs input rule line replace d /\
    (plain_columns (hFields d) -> no_commas (contents d) -> Forall (written E can room d (effects fs es)) (split x2c output)).
Proof.
  intros E il order grow can room fs input output rule line replace es H ND.
  assert (exists d, run_data E il order grow fs input rule line replace d) as [d R].
  { unfold converterRun, line_db, run_data in *. destruct line as [|c line]; cbn [is_nil] in *.
    - destruct (DumpFile _ _ _ _ _) as [d|e| |] eqn:D; try discriminate H. exists d, None. auto.
    - unfold NewDb in H. destruct (fs (c :: line)) as [content|] eqn:F; cbn [bind] in H; [|discriminate H].
      destruct (NewDbFromBytes _ _ _ content) as [db|e| |] eqn:N; cbn [bind] in H; try discriminate H.
      destruct (DumpFile _ _ _ _ _) as [d|e| |] eqn:D; try discriminate H. exists d, (Some (db, replace)). split; [exists db, content; auto|exact D]. }
  exists d. split; [exact R|]. intros HC HN. rewrite (run_data_run _ _ _ _ can room _ _ output _ _ _ _ R) in H.
  destruct (write_steps E can room d HC HN _ fs (length es) es _ ND H) as [_ (done & rest & B & C & _ & D)].
  rewrite (D eq_refl (le_n _)), app_nil_r in B. rewrite B. rewrite firstn_all in C. exact C.
Qed.
Print Assumptions C70_no_error.

(** C70 (finding): a .memip file that does not fit on the disk is cut, and the run reports
    success. *)
Theorem C70_memip_silent : forall E ipList order grow can room fs input o rule line replace d b d',
  run_data E ipList order grow fs input rule line replace d -> no_byte x2c o -> can o = true -> path_ext o = str ".memip" ->
  PackBytes (converterFormats E) (str ".memip") d = Ok (b, d') ->
  let '(es, y) := converterRun E ipList order grow can room fs input o rule line replace in
  y = Ok None /\ effects fs es o = Some (firstn (room o) b).
Proof.
  intros E il order grow can room fs input o rule line replace d b d' R Nc Co Ex PB.
  rewrite (run_data_run _ _ _ _ can room _ _ o _ _ _ _ R). rewrite split_single by exact Nc. cbn [write_outputsE]. unfold PackFileE. rewrite Co. cbn [negb].
  assert (assoc (path_ext o) (packersTo E) = Some memip_to) as Ef by (rewrite Ex; reflexivity). rewrite Ef.
  pose proof (packer_spec E (path_ext o) d (room o) _ Ef) as PS. destruct (memip_to d (mkSink [] (room o))) as [s x]. rewrite Ex, PB in PS.
  destruct PS as [Pc (d'' & err & -> & _ & _ & Pm)]. rewrite (Pm eq_refl). split; [reflexivity|]. rewrite app_nil_r.
  rewrite <- (firstn_all (Create o :: _)), effects_file, bytes_eqb_refl. cbn [length]. rewrite map_length, firstn_all, Pc. reflexivity.
Qed.
Print Assumptions C70_memip_silent.

(** C70: an .ipdb output is at any moment untouched, complete, or cannot be opened. *)
Theorem C70_ipdb_whole_or_none : forall E ipList order grow can room fs input output rule line replace d k o,
  run_data E ipList order grow fs input rule line replace d -> plain_columns (hFields d) -> no_commas (contents d) ->
  NoDup (split x2c output) ->
  json_ok (jMeta E) (jUnMeta E) (eNow E) (contents d) -> hFields d <> [] ->
  (forall b d', PackBytes (converterFormats E) (str ".ipdb") d = Ok (b, d') -> (Z.of_nat (length b) < 2 ^ 32)%Z) ->
  In o (split x2c output) -> path_ext o = str ".ipdb" ->
  let fsk := effects fs (firstn k (fst (converterRun E ipList order grow can room fs input output rule line replace))) in
  fsk o = fs o \/ holds_packed E d fsk o \/
  exists c, fsk o = Some c /\ forall il q, NewDbFromBytes (serverFormats E) il (str ".ipdb") c <> Ok q.
Proof.
  intros E il order grow can room fs input output rule line replace d k o R HC HN ND HJ HF Hs Io Ex fsk.
  destruct (C70_any_moment E il order grow can room fs input output rule line replace d k R HC HN ND) as [_ (done & rest & B & Dn & Rs)]. fold fsk in Dn, Rs.
  rewrite B in Io. apply in_app_or in Io as [Io|Io].
  { rewrite Forall_forall in Dn. destruct (Dn _ Io) as [_ (b & PB & F & L)]. right. left. exists b. split; [|exact PB].
    destruct L as [L|[L|[L _]]]; [|rewrite Ex in L; discriminate L|rewrite Ex in L; discriminate L]. rewrite firstn_all2 in F by exact L. exact F. }
  destruct rest as [|o' r]; [destruct Io|]. destruct Rs as [Bg Un]. destruct Io as [->|Io]; [|left; apply Un, Io].
  destruct Bg as [Bg|(c & Fc & P1 & P2)]; [left; exact Bg|]. right. rewrite Ex in P1, P2.
  assert ((forall b d', PackBytes (converterFormats E) (str ".ipdb") d <> Ok (b, d')) \/ exists b d', PackBytes (converterFormats E) (str ".ipdb") d = Ok (b, d')) as [No|(b & d' & PB)].
  { destruct (PackBytes _ _ d) as [[b d']| | |]; [right; eauto|left; discriminate|left; discriminate|left; discriminate]. }
  - right. exists c. split; [exact Fc|]. rewrite (P2 No) by discriminate. intros il' q X. destruct (open_query _ _ _ _ X) as (rd & qc & _ & Y & _).
    rewrite C18_short_file_crashes in Y by (cbn; lia). discriminate Y.
  - destruct (P1 _ _ PB) as (n & _ & ->). pose proof (PackBytes_keeps _ _ _ _ _ HC HN PB) as ->.
    destruct (le_lt_dec (length b) n) as [L|L].
    + left. exists b. rewrite Ex. split; [|exact PB]. rewrite Fc, firstn_all2 by exact L. reflexivity.
    + right. exists (firstn n b). split; [exact Fc|]. intros il' q X. destruct (open_query _ _ _ _ X) as (rd & qc & _ & Y & _).
      assert (Ipdb.pack (jMeta E) (eNow E) (contents d) = Ok b) as PK.
      { change (PackBytes (converterFormats E) (str ".ipdb") d) with (packH (jMeta E) (eNow E) d) in PB. rewrite packH_plain in PB by exact HC.
        destruct (Ipdb.pack (jMeta E) (eNow E) (contents d)); cbn [bind] in PB; congruence. }
      destruct (le_lt_dec 4 n) as [L4|L4].
      * destruct (C18_truncated_or_extended _ _ _ _ _ HJ HF PK (Hs _ _ PB)) as [T _]. rewrite T in Y by lia. discriminate Y.
      * rewrite C18_short_file_crashes in Y by (rewrite firstn_length; lia). discriminate Y.
Qed.
Print Assumptions C70_ipdb_whole_or_none.

(** C70 (finding): a .scan file that is cut behind a row is the file of a dataset with fewer
    rows: if the process is killed, there are moments at which the output is a proper scan
    of only the first [m] rows, for every [m]. *)
Definition only (m : nat) (d : HData) : HData := mkH (hFields d) (hVersion d) (firstn m (hRows d)) (hHeap d).
Lemma rows_cut : forall rows h m, exists rest, snd (Plain.pack_rows h rows) = snd (Plain.pack_rows h (firstn m rows)) ++ rest.
Proof.
  induction rows as [|[n s] rows IH]; intros h m.
  { rewrite firstn_nil. exists []. reflexivity. }
  destruct m as [|m]; [eexists; reflexivity|]. cbn [firstn Plain.pack_rows]. destruct (IH (comma_cells h s 0 (sLen s)) m) as [rest Hr].
  destruct (Plain.pack_rows _ rows) as [h2 t2]. destruct (Plain.pack_rows _ (firstn m rows)) as [h3 t3]. cbn [snd] in *. exists rest. rewrite Hr, app_assoc. reflexivity.
Qed.
Theorem C70_scan_cut : forall E ipList order grow can room fs input o rule line replace d b d' m,
  run_data E ipList order grow fs input rule line replace d -> no_byte x2c o -> can o = true -> path_ext o = str ".scan" ->
  PackBytes (converterFormats E) (str ".scan") d = Ok (b, d') -> length b <= room o ->
  exists k, option_map (fun c => Ok c) (effects fs (firstn k (fst (converterRun E ipList order grow can room fs input o rule line replace))) o) =
    Some (let* ' (c, _) := PackBytes (converterFormats E) (str ".scan") (only m d) in Ok c).
Proof.
  intros E il order grow can room fs input o rule line replace d b d' m R Nc Co Ex PB Hr.
  rewrite (run_data_run _ _ _ _ can room _ _ o _ _ _ _ R). rewrite split_single by exact Nc. cbn [write_outputsE]. unfold PackFileE. rewrite Co. cbn [negb].
  assert (assoc (path_ext o) (packersTo E) = Some (plain_to E)) as Ef by (rewrite Ex; reflexivity). rewrite Ef.
  pose proof (packer_spec E (path_ext o) d (room o) _ Ef) as PS. destruct (plain_to E d (mkSink [] (room o))) as [s x]. rewrite Ex, PB in PS.
  destruct PS as [Pc (d'' & err & -> & _ & Ps & _)]. destruct err as [e|]; [unfold shows_full in Ps; lia|]. rewrite app_nil_r.
  rewrite firstn_all2 in Pc by exact Hr. cbn [fst].
  change (PackBytes (converterFormats E) (str ".scan") (only m d)) with (Ok (Plain.pack (jVer E) (eClock E) (only m d))).
  change (PackBytes (converterFormats E) (str ".scan") d) with (Ok (Plain.pack (jVer E) (eClock E) d)) in PB.
  assert (exists rest, b = fst (Plain.pack (jVer E) (eClock E) (only m d)) ++ rest) as [rest Hb].
  { injection PB as PB. apply (f_equal fst) in PB. cbn [fst] in PB. subst b. unfold Plain.pack, only. cbn [hHeap hRows hVersion hFields].
    destruct (rows_cut (hRows d) (hHeap d) m) as [rest Hb]. destruct (Plain.pack_rows (hHeap d) (hRows d)) as [h2 t2]. destruct (Plain.pack_rows (hHeap d) (firstn m (hRows d))) as [h3 t3].
    cbn [fst snd] in *. exists rest. rewrite Hb, <- !app_assoc. reflexivity. }
  exists (S (length (fst (Plain.pack (jVer E) (eClock E) (only m d))))). rewrite effects_file, bytes_eqb_refl, Pc, Hb.
  rewrite firstn_app_le by lia. rewrite firstn_all. destruct (Plain.pack _ _ (only m d)). reflexivity.
Qed.
Print Assumptions C70_scan_cut.

(* ------------------------------------------------------------------ *)
(** A case: the run of C59_case, killed and with a full disk. *)
Definition case_steps (room : bytes -> nat) (output : bytes) : list effect * res (option error) :=
  converterRun aw_env [] (fun _ m => m) (fun _ => 1) (fun p => negb (is_nil p)) room case_fs (str "a.awdb") output (str "default") [] false.
Example C70_case :
  (* the premises of the theorems hold *)
  (exists d b, run_data aw_env [] (fun _ m => m) (fun _ => 1) case_fs (str "a.awdb") (str "default") [] false d /\
     plain_columns (hFields d) /\ no_commas (contents d) /\ NoDup (split x2c (str "b.ipdb,c.memip,e.scan")) /\
     json_ok (jMeta aw_env) (jUnMeta aw_env) (eNow aw_env) (contents d) /\ hFields d <> [] /\
     PackBytes (converterFormats aw_env) (str ".ipdb") d = Ok (b, d) /\ length b = 1054 /\
     path_ext (str "b.ipdb") = str ".ipdb" /\ path_ext (str "c.memip") = str ".memip" /\ path_ext (str "e.scan") = str ".scan") /\
  (* killed after 1069 steps: the first output is there, the second is begun *)
  (let '(es, y) := case_steps (fun _ => 2000) (str "b.ipdb,c.memip,e.scan") in
   let fsk := effects case_fs (firstn 1069 es) in
   y = Ok None /\ (exists b, fsk (str "b.ipdb") = Some b /\ length b = 1054) /\ fsk (str "c.memip") = Some (firstn 13 cn_text) /\ fsk (str "e.scan") = None) /\
  (* 40 bytes of room: the .memip file is cut and nothing is reported, the .ipdb file is *)
  (let '(es, y) := case_steps (fun _ => 40) (str "c.memip") in y = Ok None /\ effects case_fs es (str "c.memip") = Some (firstn 40 cn_text)) /\
  snd (case_steps (fun _ => 40) (str "b.ipdb,c.memip")) = Ok (Some ErrWrite).
Proof.
  destruct C58_awdb_case as (_ & (r & d0 & d & _ & _ & _ & _ & _ & _ & _ & D & Ec) & _ & HJ).
  split; [|split; [|split]].
  - assert (match Ipdb.pack (jMeta aw_env) (eNow aw_env) cn_done with Ok b => Some (length b) | _ => None end = Some 1054) as P by (vm_compute; reflexivity).
    destruct (Ipdb.pack (jMeta aw_env) (eNow aw_env) cn_done) as [b| | |] eqn:Eb; try discriminate P.
    assert (plain_columns (hFields d)) as HC.
    { change (hFields d) with (dFields (contents d)). rewrite Ec. cbn [cn_done dFields].
      intros f I N L. cbn [seven In] in I. repeat (destruct I as [<-|I]; [first [contradiction|vm_compute in L; discriminate L]|]). destruct I. }
    exists d, b. split; [exists None; split; [reflexivity|exact D]|]. split; [exact HC|]. split.
    { rewrite Ec. unfold no_commas. cbn [cn_done dIps]. repeat (constructor; [repeat (constructor; [intros I; apply in_map with (f := b2n) in I; vm_compute in I; intuition discriminate|]); constructor|]). constructor. }
    split; [vm_compute; repeat constructor; cbn; intuition discriminate|]. split; [rewrite Ec; exact HJ|].
    split; [change (hFields d) with (dFields (contents d)); rewrite Ec; discriminate|].
    split; [|split; [congruence|auto]].
    change (PackBytes (converterFormats aw_env) (str ".ipdb") d) with (packH (jMeta aw_env) (eNow aw_env) d). rewrite packH_plain by exact HC. rewrite Ec, Eb. reflexivity.
  - assert (let '(es, y) := case_steps (fun _ => 2000) (str "b.ipdb,c.memip,e.scan") in
      let fsk := effects case_fs (firstn 1069 es) in (y, option_map (@length byte) (fsk (str "b.ipdb")), fsk (str "c.memip"), fsk (str "e.scan")) = (Ok None, Some 1054, Some (firstn 13 cn_text), None)) as R by (vm_compute; reflexivity).
    destruct (case_steps _ _) as [es y]. cbv zeta in *. set (fsk := effects _ _) in *. injection R as R1 R2 R3 R4. split; [exact R1|]. split; [|auto].
    destruct (fsk (str "b.ipdb")) as [b|]; [|discriminate R2]. exists b. split; [reflexivity|]. cbn [option_map] in R2. congruence.
  - vm_compute. auto.
  - vm_compute. reflexivity.
Qed.
Print Assumptions C70_case.

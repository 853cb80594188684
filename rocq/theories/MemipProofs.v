From Verif Require Import Base NetIP IpNet Spec IpNetProofs IpNetProofs2 NetTextProofs BuildProofs Plain PlainProofs PropsIpNet.
From Verif Require Import Memip SpecMemip.
From Verif Require PropsIpdb.
Open Scope nat_scope.

(* ---------- values ---------- *)
Lemma has_prefix_firstn p : forall s, has_prefix s p = bytes_eqb (firstn (length p) s) p.
Proof.
  induction p as [|x p IH]; intros [|y s]; try reflexivity.
  cbn [has_prefix length firstn bytes_eqb]. rewrite IH.
  destruct (byte_eqb_spec x y) as [->|N]; [rewrite byte_eqb_refl; reflexivity|].
  destruct (byte_eqb_spec y x); [congruence|reflexivity].
Qed.
Lemma is_nil_eqb (s : bytes) : is_nil s = bytes_eqb s [].
Proof. destruct s; reflexivity. Qed.

Lemma idx_first_column f : forall fields row, length fields <= length row ->
  match offset_of f fields with
  | None => first_column f fields row = None
  | Some i => exists v, idx row i = Ok v /\ first_column f fields row = Some v
  end.
Proof.
  induction fields as [|g fields IH]; intros row L; [reflexivity|].
  destruct row as [|v row]; [cbn in L; lia|]. cbn [offset_of first_column].
  destruct (bytes_eqb g f); [exists v; split; reflexivity|]. cbn [length] in L. specialize (IH row ltac:(lia)).
  destruct (offset_of f fields) as [i|]; [|assumption]. destruct IH as [w [E1 E2]]. exists w. split; [|assumption].
  exact E1.
Qed.

Definition getcol (offs : option nat) (i : nat) (row : list bytes) : res bytes :=
  match offs with None => Ok unknown | Some v => let* x := idx row v in Ok (covert_value i x) end.
Definition post (i : nat) (v : bytes) : bytes :=
  if i =? 5 then continent_name v else if i =? 3 then isp_class v else v.

Lemma covert_value_spec i v : covert_value i v = post i (or_default (Some v)).
Proof.
  unfold covert_value, post, or_default, dflt. rewrite is_nil_eqb, has_prefix_firstn. fold unknown.
  set (w := if bytes_eqb v [] || _ then unknown else v).
  replace (if bytes_eqb v [] then unknown else if bytes_eqb (firstn (length (str "保留")) v) (str "保留") then unknown else v) with w
    by (unfold w; destruct (bytes_eqb v []); reflexivity).
  clearbody w. destruct (Nat.eqb_spec i 5) as [->|N5].
  - cbn [Nat.eqb]. unfold continent_name, continents. cbn [assoc].
    repeat (match goal with |- context [bytes_eqb w ?c] =>
      destruct (bytes_eqb_spec w c) as [->|?]; [reflexivity|] end).
    repeat (match goal with |- context [bytes_eqb ?c w] =>
      destruct (bytes_eqb_spec c w) as [Q|?]; [congruence|] end). reflexivity.
  - destruct (Nat.eqb_spec i 3) as [->|N3]; [|reflexivity].
    unfold isp_class. change dflt with unknown. unfold in_array. cbn [existsb].
    destruct (bytes_eqb w (str "电信")), (bytes_eqb w (str "联通")), (bytes_eqb w (str "移动")), (bytes_eqb w unknown); reflexivity.
Qed.

Lemma getcol_spec f i fields row : length fields <= length row -> i <= 5 ->
  getcol (offset_of f fields) i row = Ok (post i (or_default (first_column f fields row))).
Proof.
  intros L I. pose proof (idx_first_column f fields row L) as H. unfold getcol.
  destruct (offset_of f fields) as [k|].
  - destruct H as [v [-> ->]]. cbn [bind]. rewrite covert_value_spec. reflexivity.
  - rewrite H. cbn [or_default]. do 6 (destruct i as [|i]; [reflexivity|]). lia.
Qed.

Definition hmt (pv : bytes) : bool := bytes_eqb pv (str "香港") || bytes_eqb pv (str "澳门") || bytes_eqb pv (str "台湾").
Lemma covert_step i o offs values nw :
  covert_loop i (o :: offs) values nw =
  let* nv := getcol o i values in
  covert_loop (S i) offs values (if hmt (nth 1 (upd nw i nv) []) then upd (upd nw i nv) 2 unknown else upd nw i nv).
Proof. reflexivity. Qed.
Lemma hmt_in p : in_array p [str "香港"; str "澳门"; str "台湾"] = hmt p.
Proof.
  unfold hmt, in_array. cbn [existsb].
  destruct (bytes_eqb p (str "香港")), (bytes_eqb p (str "澳门")), (bytes_eqb p (str "台湾")); reflexivity.
Qed.

Lemma covertValues_spec fields row : length fields <= length row ->
  covertValues (fieldOffsets fields) row = Ok (memip_view fields row).
Proof.
  intros L. unfold covertValues, fieldOffsets, memFields. cbn [map repeat].
  rewrite covert_step, getcol_spec by (assumption || lia). cbn [bind upd nth].
  change (hmt []) with false. cbv iota.
  rewrite covert_step, getcol_spec by (assumption || lia). cbn [bind upd nth].
  unfold memip_view. rewrite hmt_in. change (post 1 (or_default (first_column fProvince fields row))) with (or_default (first_column (str "province") fields row)).
  set (p := or_default (first_column (str "province") fields row)).
  destruct (hmt p) eqn:T;
  do 4 (rewrite covert_step, getcol_spec by (assumption || lia); cbn [bind upd nth]; rewrite T; cbv iota);
  reflexivity.
Qed.

(** A row's view is made of its own values and of fixed words. *)
Definition words : list bytes :=
  [dflt; str "其他"; str "亚洲"; str "欧洲"; str "北美洲"; str "南美洲"; str "非洲"; str "大洋洲"; str "南极洲"].
Lemma first_column_In f fields : forall row v, first_column f fields row = Some v -> In v row.
Proof.
  induction fields as [|g fields IH]; intros [|w row] v H; try discriminate H. cbn [first_column] in H.
  destruct (bytes_eqb g f); [injection H as ->; left; reflexivity|right; apply IH; assumption].
Qed.
Lemma or_default_In f fields row : In (or_default (first_column f fields row)) (words ++ row).
Proof.
  unfold or_default. destruct (first_column f fields row) as [v|] eqn:E; [|left; reflexivity].
  destruct (bytes_eqb v []); [left; reflexivity|]. destruct (bytes_eqb _ _); [left; reflexivity|].
  apply in_or_app. right. eapply first_column_In. eassumption.
Qed.
Lemma view_words fields row v : In v (memip_view fields row) -> In v (words ++ row).
Proof.
  unfold memip_view. intros [<-|[<-|[<-|[<-|[<-|[<-|[]]]]]]]; try apply or_default_In.
  - destruct (in_array _ _); [left; reflexivity|apply or_default_In].
  - unfold isp_class. destruct (in_array _ _); [apply or_default_In|right; left; reflexivity].
  - unfold continent_name. destruct (assoc _ continents) as [n|] eqn:E; [|apply or_default_In].
    apply in_or_app. left. clear -E. unfold continents in E. cbn [assoc] in E.
    repeat (match type of E with (if ?b then _ else _) = _ => destruct b; [injection E as <-; cbn; tauto|] end). discriminate E.
Qed.

(* ---------- merging ---------- *)
(** A packed range: the rows it stands for. *)
Record stands (fields : list bytes) (r : Range) (f : list bytes) (P : list (IpRaw * block)) : Prop := {
  st_wf : wf_range r;
  st_len : length (rStart r) = 16 /\ length (rEnd r) = 16;
  st_set : forall a, in_range r a <-> exists row b, In (row, b) P /\ in_block b a;
  st_tail : forall row b, In (row, b) P -> uncity (memip_view fields (fvals row)) = uncity f;
  st_first : exists row b, In (row, b) P /\ memip_view fields (fvals row) = f /\ base b = addr (rStart r) }.

Lemma JoinIPNet_shape r n r' : JoinIPNet r n = Ok (true, r') -> valid_ip (nIP n) ->
  length (rEnd r) = 16 -> (forall l, LastIP n = Ok l -> valid_ip l) ->
  rStart r' = rStart r /\ length (rEnd r') = 16.
Proof.
  intros H V L HL. unfold JoinIPNet in H. destruct (_ || _); [discriminate H|].
  destruct (LastIP n) as [l| | |] eqn:E; cbn [bind] in H; try discriminate H.
  destruct (negb _); injection H as <-; cbn [rStart rEnd]; [split; [reflexivity|apply to16_length; auto]|auto].
Qed.

Definition row_ok (fields : list bytes) (row : IpRaw) (b : block) : Prop :=
  net_is (cidr row) b /\ aligned b /\ length fields <= length (fvals row).

Lemma base_in b : in_block b (base b).
Proof. unfold in_block. pose proof (pow_pos (logsz b)). lia. Qed.

Lemma new_stands fields row b : row_ok fields row b ->
  exists r, NewRange (cidr row) = Ok r /\ stands fields r (memip_view fields (fvals row)) [(row, b)].
Proof.
  intros [HN [AL HL]]. destruct (NewRange_spec _ _ HN AL) as [r [E [W [L1 [L2 S]]]]].
  exists r. split; [assumption|]. constructor; auto.
  - intros a. rewrite S. split; [intros H; exists row, b; split; [left; reflexivity|assumption]|].
    intros [row' [b' [[Q|[]] H]]]. injection Q as <- <-. assumption.
  - intros row' b' [Q|[]]. injection Q as <- <-. reflexivity.
  - exists row, b. split; [left; reflexivity|]. split; [reflexivity|].
    destruct W as [_ _ Le]. unfold in_range in S.
    assert (A : in_block b (addr (rStart r))) by (apply S; lia).
    pose proof (proj2 (S (base b)) (base_in b)). unfold in_block in A. lia.
Qed.

Lemma mem_merge_spec fields : forall rows bs r f P,
  Forall2 (row_ok fields) rows bs -> stands fields r f P ->
  exists out Ps, mem_merge (fieldOffsets fields) r f rows = Ok out /\ concat Ps = P ++ combine rows bs /\
    Forall2 (fun rf Q => stands fields (fst rf) (snd rf) Q) out Ps.
Proof.
  induction rows as [|row rows IH]; intros bs r f P F S.
  - inversion F; subst. exists [(r, f)], [P]. cbn [mem_merge concat combine]. split; [reflexivity|]. split; [rewrite !app_nil_r; reflexivity|].
    constructor; [assumption|constructor].
  - inversion F as [|? b ? bs' HR F']; subst. pose proof HR as [HN [AL HL]]. cbn [mem_merge combine].
    rewrite covertValues_spec by assumption. cbn [bind].
    assert (FRESH : exists out Ps,
      (let* r2 := NewRange (cidr row) in
       let* out := mem_merge (fieldOffsets fields) r2 (memip_view fields (fvals row)) rows in Ok ((r, f) :: out)) = Ok out /\
      concat Ps = P ++ (row, b) :: combine rows bs' /\ Forall2 (fun rf Q => stands fields (fst rf) (snd rf) Q) out Ps).
    { destruct (new_stands fields row b HR) as [r2 [-> S2]]. cbn [bind].
      destruct (IH bs' r2 _ _ F' S2) as [out [Ps [E [C G]]]]. rewrite E. cbn [bind].
      exists ((r, f) :: out), (P :: Ps). split; [reflexivity|]. split; [cbn [concat]; rewrite C; reflexivity|].
      constructor; assumption. }
    destruct (strs_eqb_spec (skipn 1 f) (skipn 1 (memip_view fields (fvals row)))) as [ET|]; [|exact FRESH].
    pose proof S as [W [L1 L2] SS ST SF].
    destruct (JoinIPNet_total r (cidr row) b W HN) as [ok [r2 E]]. rewrite E. cbn [bind].
    destruct ok; [|exact FRESH].
    destruct (JoinIPNet_true _ _ _ _ W HN AL E) as [_ [W2 S2]].
    destruct (JoinIPNet_shape _ _ _ E (ni_len _ _ HN) L2) as [QS QE].
    { intros l El. destruct (LastIP_spec _ _ HN) as [l' [El' [LL _]]]. rewrite El in El'. injection El' as <-.
      pose proof (ni_len _ _ HN). unfold valid_ip in *. rewrite LL. assumption. }
    destruct (IH bs' r2 f (P ++ [(row, b)]) F') as [out [Ps [E2 [C G]]]].
    + constructor; auto.
      * rewrite QS. auto.
      * intros a. rewrite S2, SS. split.
        -- intros [[r0 [b0 [I0 H0]]]|H]; [exists r0, b0; split; [apply in_or_app; auto|assumption]|].
           exists row, b. split; [apply in_or_app; right; left; reflexivity|assumption].
        -- intros [r0 [b0 [I0 H0]]]. apply in_app_or in I0. destruct I0 as [I0|[I0|[]]]; [left; eauto|]. injection I0 as <- <-. right. assumption.
      * intros r0 b0 I0. apply in_app_or in I0. destruct I0 as [I0|[I0|[]]]; [eauto|]. injection I0 as <- <-. symmetry. exact ET.
      * destruct SF as [r0 [b0 [I0 H0]]]. exists r0, b0. rewrite QS. split; [apply in_or_app; left; assumption|assumption].
    + exists out, Ps. split; [assumption|]. split; [rewrite C, <- app_assoc; reflexivity|assumption].
Qed.

(* ---------- lines ---------- *)

Lemma view_text f : length f = 6 -> Forall clean f ->
  no_byte x20 (join x2d f) /\ no_byte x0a (join x2d f) /\ no_byte x0d (join x2d f) /\
  split x2d (join x2d f) = f /\ length (join x2d f) <= N.to_nat 60000.
Proof.
  intros L F. unfold clean in F. repeat split.
  - apply join_no; [discriminate|]. eapply Forall_impl; [|exact F]; cbn beta; intros v (A1 & A2 & A3 & A4 & A5); assumption.
  - apply join_no; [discriminate|]. eapply Forall_impl; [|exact F]; cbn beta; intros v (A1 & A2 & A3 & A4 & A5); assumption.
  - apply join_no; [discriminate|]. eapply Forall_impl; [|exact F]; cbn beta; intros v (A1 & A2 & A3 & A4 & A5); assumption.
  - apply split_join; [destruct f; discriminate|]. eapply Forall_impl; [|exact F]; cbn beta; intros v (A1 & A2 & A3 & A4 & A5); assumption.
  -     pose proof (join_length_le x2d (N.to_nat 9999) f) as H. rewrite L in H.
    assert (length (join x2d f) <= 6 * S (N.to_nat 9999)) as Q; [|lia].
    apply H. eapply Forall_impl; [|exact F]. intros v (_ & _ & _ & _ & Hv). cbn beta. lia.
Qed.

Lemma undec_no c n : undec c = None -> no_byte c (dec n).
Proof. intros H I. apply dec_chars in I. contradiction. Qed.
Lemma dec_length32 n : (n < 2 ^ 32)%N -> length (dec n) <= 10.
Proof. intros H. unfold dec. rewrite map_length. apply (digits_length 10 9); [lia|]. change (10 ^ N.of_nat 10)%N with 10000000000%N. lia. Qed.
Lemma ip_no c ip : valid_ip ip -> c <> x2e -> c <> x3a -> unhex c = None -> no_byte c (ip_string ip).
Proof. intros V H1 H2 H3 I. apply ip_string_chars in I; [|assumption]. destruct I as [I|[I|I]]; contradiction. Qed.

Definition fits (l : bytes) : Prop := no_byte x0a l /\ no_byte x0d l /\ (N.of_nat (length l) < 65536)%N.

Lemma no_app c a b : no_byte c a -> no_byte c b -> no_byte c (a ++ b).
Proof. intros A B I. apply in_app_or in I. destruct I; auto. Qed.
Lemma no_cons c x a : c <> x -> no_byte c a -> no_byte c (x :: a).
Proof. intros A B [I|I]; [congruence|auto]. Qed.

Lemma line_fits a b v : no_byte x0a a -> no_byte x0d a -> length a <= 40 -> no_byte x0a b -> no_byte x0d b -> length b <= 40 ->
  no_byte x0a v -> no_byte x0d v -> length v <= N.to_nat 60000 -> fits (a ++ x20 :: b ++ x20 :: v).
Proof.
  intros. repeat split.
  - apply no_app; [assumption|]. apply no_cons; [discriminate|]. apply no_app; [assumption|]. apply no_cons; [discriminate|assumption].
  - apply no_app; [assumption|]. apply no_cons; [discriminate|]. apply no_app; [assumption|]. apply no_cons; [discriminate|assumption].
  - repeat (rewrite app_length; cbn [length]). lia.
Qed.

Lemma line_parse a b v : no_byte x20 a -> no_byte x20 b -> no_byte x20 v ->
  mparseLine (a ++ x20 :: b ++ x20 :: v) = Ok ((if has_colon a then parseV6Range a b else parseV4Range a b), split x2d v).
Proof.
  intros A B V. unfold mparseLine. rewrite split_app, split_app, split_single by assumption. reflexivity.
Qed.

Lemma has_colon_no s : no_byte x3a s -> has_colon s = false.
Proof.
  intros H. unfold has_colon. destruct (existsb _ s) eqn:E; [|reflexivity]. apply existsb_exists in E.
  destruct E as [c [I Q]]. destruct (byte_eqb_spec c x3a); [subst; contradiction|discriminate Q].
Qed.
Lemma has_colon_in s : In x3a s -> has_colon s = true.
Proof. intros H. unfold has_colon. apply existsb_exists. exists x3a. split; [assumption|reflexivity]. Qed.

Lemma u32_back ip : length ip = 16 -> is_v4 (addr ip) ->
  exists u, (u < 2 ^ 32)%N /\ IPv4ToUint32 ip = Ok u /\ Uint32ToIPv4 u = ip.
Proof.
  intros L H. exists (addr ip - v4base)%N. assert (V : valid_ip ip) by (right; assumption). unfold is_v4 in H.
  assert (B : (addr ip - v4base < 2 ^ 32)%N) by lia.
  split; [assumption|]. split; [apply IPv4ToUint32_v4; assumption|].
  destruct (Uint32ToIPv4_spec _ B) as [L2 A]. apply addr_inj; [congruence|right; assumption|]. rewrite A. lia.
Qed.

Lemma line_v4 r f : length (rStart r) = 16 -> length (rEnd r) = 16 -> is_v4 (addr (rStart r)) -> is_v4 (addr (rEnd r)) ->
  length f = 6 -> Forall clean f ->
  exists l, mem_line true (r, f) = Ok (l ++ [x0a]) /\ mparseLine l = Ok (Some r, f) /\ fits l /\
    (Forall (no_byte x3a) f -> has_colon l = false).
Proof.
  intros L1 L2 V1 V2 LF C. destruct (u32_back _ L1 V1) as [s [Bs [Es Us]]]. destruct (u32_back _ L2 V2) as [e [Be [Ee Ue]]].
  destruct (view_text f LF C) as [T1 [T2 [T3 [T4 T5]]]].
  exists (dec s ++ x20 :: dec e ++ x20 :: join x2d f). split; [|split; [|split]].
  - unfold mem_line. cbn [fst snd]. rewrite Es, Ee. cbn [bind]. do 2 (rewrite <- !app_assoc; cbn [app]). reflexivity.
  - rewrite line_parse by (assumption || (apply undec_no; reflexivity)). rewrite has_colon_no by (apply undec_no; reflexivity).
    rewrite T4. unfold parseV4Range. rewrite !ParseUint32_dec by assumption. rewrite Us, Ue. destruct r; reflexivity.
  - pose proof (dec_length32 s Bs). pose proof (dec_length32 e Be).
    apply line_fits; try assumption; try (apply undec_no; reflexivity); lia.
  - intros NC. apply has_colon_no. apply no_app; [apply undec_no; reflexivity|]. apply no_cons; [discriminate|].
    apply no_app; [apply undec_no; reflexivity|]. apply no_cons; [discriminate|]. apply join_no; [discriminate|assumption].
Qed.

Lemma first_special_In s c : first_special s = Some c -> In c s.
Proof.
  induction s as [|x s IH]; [discriminate|]. cbn [first_special].
  destruct (byte_eqb x x2e || byte_eqb x x3a); [intros H; injection H as ->; left; reflexivity|intros H; right; auto].
Qed.

Lemma line_v6 r f : length (rStart r) = 16 -> length (rEnd r) = 16 -> ~ is_v4 (addr (rStart r)) ->
  length f = 6 -> Forall clean f ->
  exists l, mem_line false (r, f) = Ok (l ++ [x0a]) /\ mparseLine l = Ok (Some r, f) /\ fits l /\ has_colon l = true.
Proof.
  intros L1 L2 V1 LF C. destruct (view_text f LF C) as [T1 [T2 [T3 [T4 T5]]]].
  assert (W1 : valid_ip (rStart r)) by (right; assumption). assert (W2 : valid_ip (rEnd r)) by (right; assumption).
  assert (CO : In x3a (ip_string (rStart r))).
  { unfold ip_string. destruct (to4_spec (rStart r) W1) as [T _].
    destruct (to4 (rStart r)) as [|t0 t] eqn:E; cbn [is_nil negb].
    - rewrite L1. cbn [Nat.eqb]. apply first_special_In. apply string6_special. assumption.
    - exfalso. apply V1. unfold is_v4, v4base. assert (t0 :: t <> []) as Q by discriminate. apply T in Q. lia. }
  exists (ip_string (rStart r) ++ x20 :: ip_string (rEnd r) ++ x20 :: join x2d f). split; [|split; [|split]].
  - unfold mem_line. cbn [fst snd]. do 2 (rewrite <- !app_assoc; cbn [app]). reflexivity.
  - rewrite line_parse by (assumption || (apply ip_no; (assumption || discriminate || reflexivity))).
    rewrite has_colon_in by assumption. rewrite T4. unfold parseV6Range. rewrite !ParseIP_string by assumption.
    rewrite !to16_id by assumption. destruct r; reflexivity.
  - pose proof (ip_string_length _ W1). pose proof (ip_string_length _ W2).
    apply line_fits; try assumption; try (apply ip_no; (assumption || discriminate || reflexivity)); lia.
  - apply has_colon_in. apply in_or_app. left. assumption.
Qed.

(* ---------- whole files ---------- *)
Definition written (v4 : bool) (rf : Range * list bytes) (l : bytes) : Prop :=
  mem_line v4 rf = Ok (l ++ [x0a]) /\ mparseLine l = Ok (Some (fst rf), snd rf) /\ fits l.

Lemma mem_lines_spec v4 out ls : Forall2 (written v4) out ls ->
  mem_lines v4 out = Ok (unlines ls) /\ scan_lines (unlines ls) = ls.
Proof.
  intros F. split.
  - induction F as [|rf l out ls [E _] F IH]; [reflexivity|]. cbn [mem_lines]. rewrite E. cbn [bind]. rewrite IH. reflexivity.
  - assert (G : Forall fits ls) by (induction F as [|rf l out ls (_ & _ & H) F IH]; constructor; assumption).
    apply scan_unlines; (eapply Forall_impl; [|exact G]); intros l (A & B & C); assumption.
Qed.

Lemma mem_rows_spec v4 out ls : Forall2 (written v4) out ls ->
  Forall (fun rf => length (rEnd (fst rf)) = 16) out ->
  Forall (fun rf => addr (rEnd (fst rf)) + 1 < 2 ^ 128)%N (removelast out) ->
  mem_rows ls = Ok out.
Proof.
  induction 1 as [|[r f] l out ls (_ & E & _) F IH]; intros L O; [reflexivity|].
  cbn [fst snd] in *. cbn [mem_rows]. rewrite E. cbn [bind]. inversion L as [|? ? L1 L2]; subst. cbn [fst] in L1.
  destruct out as [|rf2 out].
  - inversion F; subst. cbn [mem_rows bind]. destruct (IsAllMask (rEnd r)); reflexivity.
  - cbn [removelast] in O. inversion O as [|? ? O1 O2]; subst. cbn [fst] in O1.
    destruct (IsAllMask (rEnd r)) eqn:M.
    + exfalso. unfold IsAllMask in M. apply all_ff_ones in M. unfold all_ones in M. rewrite <- addr_16, L1 in M by assumption.
      change (8 * N.of_nat 16)%N with 128%N in M. lia.
    + rewrite IH by assumption. reflexivity.
Qed.

(** No address is in two of the ranges. *)
Definition apart_ranges (out : list (Range * list bytes)) : Prop :=
  forall i j p q, i <> j -> nth_error out i = Some p -> nth_error out j = Some q -> forall a, ~ (in_range (fst p) a /\ in_range (fst q) a).
Lemma disjoint_app l1 l2 : PropsIpdb.disjoint l1 -> PropsIpdb.disjoint l2 ->
  (forall b c a, In b l1 -> In c l2 -> ~ (in_block b a /\ in_block c a)) -> PropsIpdb.disjoint (l1 ++ l2).
Proof.
  intros D1 D2 X i j b c N Hi Hj a [A B].
  destruct (Nat.lt_ge_cases i (length l1)) as [Li|Li], (Nat.lt_ge_cases j (length l1)) as [Lj|Lj];
    rewrite ?nth_error_app1 in Hi by assumption; rewrite ?nth_error_app2 in Hi by assumption;
    rewrite ?nth_error_app1 in Hj by assumption; rewrite ?nth_error_app2 in Hj by assumption.
  - exact (D1 i j b c N Hi Hj a (conj A B)).
  - exact (X b c a (nth_error_In _ _ Hi) (nth_error_In _ _ Hj) (conj A B)).
  - exact (X c b a (nth_error_In _ _ Hj) (nth_error_In _ _ Hi) (conj B A)).
  - apply (D2 (i - length l1) (j - length l1) b c) with (a := a); try assumption; [lia|split; assumption].
Qed.
Lemma tail_apart p out : apart_ranges (p :: out) -> apart_ranges out.
Proof. intros H i j x y N Hi Hj. apply (H (S i) (S j)); [congruence|assumption|assumption]. Qed.

Lemma mem_split_spec out : Forall (fun rf => wf_range (fst rf)) out ->
  exists rows bs, mem_split out = Ok rows /\ Forall2 (fun r b => net_is (cidr r) b /\ aligned b) rows bs /\
    (forall r b, In (r, b) (combine rows bs) ->
       exists rg, In (rg, fvals r) out /\ forall a, in_block b a -> in_range rg a) /\
    (forall rg f a, In (rg, f) out -> in_range rg a ->
       exists r b, In (r, b) (combine rows bs) /\ in_block b a /\ fvals r = f) /\
    (apart_ranges out -> PropsIpdb.disjoint bs).
Proof.
  induction 1 as [|[rg f] out W F [rows [bs [E [G [A [B DJ]]]]]]].
  - exists [], []. cbn [mem_split]. split; [reflexivity|]. split; [constructor|]. split; [intros r b []|]. split; [intros rg f a []|].
    intros _ [|i] j b c _ H; discriminate H.
  - cbn [fst] in W. destruct (C01_ipnets_exact rg W) as [nets [_ [EN _]]].
    destruct (C01_ipnets_sets rg nets W EN) as [bn [N1 [N2 [N3 N4]]]].
    exists (map (fun n => mkRaw n f) nets ++ rows), (bn ++ bs). cbn [mem_split]. rewrite EN. cbn [bind]. rewrite E. cbn [bind].
    split; [reflexivity|].
    assert (G1 : Forall2 (fun r b => net_is (cidr r) b /\ aligned b) (map (fun n => mkRaw n f) nets) bn).
    { clear - N1 N2. induction N1 as [|n b nets bn H N1 IH]; [constructor|]. inversion N2; subst. cbn [map]. constructor; [cbn [cidr]; auto|auto]. }
    assert (CL : combine (map (fun n => mkRaw n f) nets ++ rows) (bn ++ bs) =
                 combine (map (fun n => mkRaw n f) nets) bn ++ combine rows bs).
    { clear - N1. induction N1 as [|n b nets bn H N1 IH]; [reflexivity|]. cbn [map app combine]. rewrite IH. reflexivity. }
    assert (CI : forall r b, In (r, b) (combine (map (fun n => mkRaw n f) nets) bn) -> fvals r = f /\ In b bn).
    { intros r b I. pose proof (in_combine_r _ _ _ _ I). apply in_combine_l in I. apply in_map_iff in I.
      destruct I as [n [<- _]]. auto. }
    assert (CB : forall b, In b bn -> exists r, In (r, b) (combine (map (fun n => mkRaw n f) nets) bn)).
    { clear - N1. induction N1 as [|n b nets bn H N1 IH]; intros b0 I; [destruct I|]. cbn [map combine].
      destruct I as [<-|I]; [eexists; left; reflexivity|]. destruct (IH _ I) as [r Hr]. exists r. right. assumption. }
    split; [apply Forall2_app; assumption|]. rewrite CL. split; [|split].
    + intros r b I. apply in_app_or in I. destruct I as [I|I].
      * destruct (CI _ _ I) as [<- Ib]. exists rg. split; [left; reflexivity|]. intros a Ha. apply N3. eauto.
      * destruct (A r b I) as [rg' [I' H']]. exists rg'. split; [right; assumption|assumption].
    + intros rg' f' a [Q|I] Ha.
      * injection Q as <- <-. apply N3 in Ha. destruct Ha as [b [Ib Hb]]. destruct (CB b Ib) as [r Ir].
        exists r, b. split; [apply in_or_app; left; assumption|]. split; [assumption|]. apply (CI _ _ Ir).
      * destruct (B _ _ _ I Ha) as [r [b [I1 H1]]]. exists r, b. split; [apply in_or_app; right; assumption|assumption].
    + intros AP. apply disjoint_app; [|apply DJ; eapply tail_apart; exact AP|].
      * intros i j b c N Hi Hj a [Ha Hb]. destruct (Nat.lt_ge_cases i j) as [L|L].
        -- specialize (N4 i j b c L Hi Hj a Ha). unfold in_block in Hb. lia.
        -- assert (j < i) as L' by lia. specialize (N4 j i c b L' Hj Hi a Hb). unfold in_block in Ha. lia.
      * intros b c a Ib Ic [Ha Hc].
        assert (exists r, In (r, c) (combine rows bs)) as [r Ir].
        { clear - G Ic. induction G as [|r0 b0 rows bs H G IH]; [destruct Ic|]. destruct Ic as [->|Ic]; [exists r0; left; reflexivity|]. destruct (IH Ic) as [r Hr]. exists r. right. exact Hr. }
        destruct (A r c Ir) as [rg' [I' H']]. apply In_nth_error in I' as [k Hk].
        apply (AP 0 (S k) (rg, f) (rg', fvals r) ltac:(discriminate) eq_refl Hk a). cbn [fst]. split; [apply N3; eauto|apply H'; exact Hc].
Qed.

(** Property theorems C33 and the memip part of C26.
    Vocabulary: Spec.v, SpecIpdb.v (continent_name), SpecMemip.v. *)
From Verif Require Import Base NetIP IpNet Spec IpNetProofs IpNetProofs2 NetTextProofs BuildProofs Plain PlainProofs PropsIpNet.
From Verif Require Import Memip SpecMemip MemipProofs.
Open Scope nat_scope.

Lemma Forall2_rows d bs : Forall2 (fun r b => net_is (cidr r) b /\ aligned b) (dIps d) bs ->
  Forall (fun r => length (fvals r) = length (dFields d)) (dIps d) ->
  Forall2 (row_ok (dFields d)) (dIps d) bs.
Proof.
  intros F V. induction F as [|r b rows bs [H1 H2] F IH]; [constructor|]. inversion V; subst.
  constructor; [|apply IH; assumption]. unfold row_ok. split; [assumption|]. split; [assumption|]. lia.
Qed.

Lemma mpack_ranges d bs : dIps d <> [] -> Forall2 (row_ok (dFields d)) (dIps d) bs ->
  exists out Ps, mpack d = mem_lines (vIpType (dVersion d) =? 1)%Z out /\ concat Ps = combine (dIps d) bs /\
    Forall2 (fun rf Q => stands (dFields d) (fst rf) (snd rf) Q) out Ps.
Proof.
  intros NE F. unfold mpack. destruct F as [|row b rows bs HR F]; [congruence|].
  pose proof HR as [_ [_ HL]]. rewrite covertValues_spec by assumption. cbn [bind].
  destruct (new_stands _ _ _ HR) as [r [E S]]. rewrite E. cbn [bind].
  destruct (mem_merge_spec _ _ _ _ _ _ F S) as [out [Ps [E2 [C G]]]]. rewrite E2. cbn [bind].
  exists out, Ps. split; [reflexivity|]. split; assumption.
Qed.

Lemma removelast_app_ne {A} (l l' : list A) : l' <> [] -> removelast (l ++ l') = l ++ removelast l'.
Proof. apply removelast_app. Qed.

Lemma ends_ok fields (out : list (Range * list bytes)) Ps : Forall2 (fun rf Q => stands fields (fst rf) (snd rf) Q) out Ps ->
  Forall (fun rb => base (snd rb) + 2 ^ logsz (snd rb) < 2 ^ 128)%N (removelast (concat Ps)) ->
  Forall (fun rf => addr (rEnd (fst rf)) + 1 < 2 ^ 128)%N (removelast out).
Proof.
  induction 1 as [|rf P out Ps S F IH]; intros H; [constructor|].
  destruct out as [|rf2 out]; [constructor|].
  assert (NE : concat Ps <> []).
  { inversion F as [|? P2 ? Ps2 S2 F2]; subst. cbn [concat]. destruct (st_first _ _ _ _ S2) as [r0 [b0 [I0 _]]]. destruct P2; [destruct I0|discriminate]. }
  cbn [concat] in H. rewrite removelast_app in H by assumption. apply Forall_app in H. destruct H as [H1 H2].
  change (removelast (rf :: rf2 :: out)) with (rf :: removelast (rf2 :: out)). constructor; [|apply IH; assumption].
  destruct S as [[V1 V2 Le] _ SS _ _].
  assert (I : in_range (fst rf) (addr (rEnd (fst rf)))) by (unfold in_range; lia).
  apply SS in I. destruct I as [r0 [b0 [I0 B0]]]. rewrite Forall_forall in H1. specialize (H1 _ I0). cbn [snd] in H1.
  unfold in_block in B0. lia.
Qed.

Lemma removelast_combine {A B} (l : list A) (m : list B) (Q : B -> Prop) : length l = length m ->
  Forall Q (removelast m) -> Forall (fun p => Q (snd p)) (removelast (combine l m)).
Proof.
  revert m. induction l as [|x l IH]; intros [|y m] L H; try discriminate L; [constructor|].
  cbn [length] in L. injection L as L. destruct l as [|x2 l], m as [|y2 m]; try discriminate L; [constructor|].
  change (removelast (combine (x :: x2 :: l) (y :: y2 :: m))) with ((x, y) :: removelast (combine (x2 :: l) (y2 :: m))).
  change (removelast (y :: y2 :: m)) with (y :: removelast (y2 :: m)) in H. inversion H; subst.
  constructor; [assumption|]. apply IH; assumption.
Qed.

Lemma words_clean : Forall clean words.
Proof.
  repeat (constructor; [repeat split; try (intros H; cbn in H; repeat (destruct H as [H|H]; [discriminate H|]); exact H); reflexivity|]). constructor.
Qed.
Lemma words_colon : Forall (no_byte x3a) words.
Proof.
  repeat (constructor; [intros H; cbn in H; repeat (destruct H as [H|H]; [discriminate H|]); exact H|]). constructor.
Qed.

Lemma view_all (Q : bytes -> Prop) fields row : Forall Q words -> Forall Q row -> Forall Q (memip_view fields row).
Proof.
  intros W R. apply Forall_forall. intros v I. apply view_words in I. apply in_app_or in I.
  rewrite Forall_forall in W, R. destruct I; auto.
Qed.

(** Ranges that stand for disjoint rows are disjoint. *)
Definition apart_rows (P : list (IpRaw * block)) : Prop :=
  forall i j x y, i <> j -> nth_error P i = Some x -> nth_error P j = Some y -> forall a, ~ (in_block (snd x) a /\ in_block (snd y) a).
Lemma combine_apart rows bs : PropsIpdb.disjoint bs -> apart_rows (combine rows bs).
Proof.
  intros D i j x y N Hi Hj. assert (forall k z, nth_error (combine rows bs) k = Some z -> nth_error bs k = Some (snd z)) as K.
  { clear. revert bs. induction rows as [|r rows IH]; intros [|b bs] [|k] z H; cbn in *; try discriminate; [injection H as <-; reflexivity|auto]. }
  exact (D i j (snd x) (snd y) N (K _ _ Hi) (K _ _ Hj)).
Qed.
Lemma stands_apart fields out Ps : Forall2 (fun rf Q => stands fields (fst rf) (snd rf) Q) out Ps -> apart_rows (concat Ps) -> apart_ranges out.
Proof.
  induction 1 as [|rf Q out Ps S F IH]; intros AP; [intros [|i] j p q N H; discriminate H|].
  cbn [concat] in AP.
  assert (forall p k a, nth_error out k = Some p -> ~ (in_range (fst rf) a /\ in_range (fst p) a)) as X.
  { intros p k a Hk [H1 H2]. apply (st_set _ _ _ _ S) in H1 as (r1 & b1 & I1 & B1).
    assert (exists Q', In Q' Ps /\ stands fields (fst p) (snd p) Q') as (Q' & IQ & S').
    { clear - F Hk. revert k Hk. induction F as [|x0 Q0 o0 P0 H0 F IH]; intros [|k] Hk; try discriminate Hk.
      - cbn in Hk. injection Hk as <-. exists Q0. split; [left; reflexivity|exact H0].
      - destruct (IH k Hk) as (Q' & I & H'). exists Q'. split; [right; exact I|exact H']. }
    destruct (proj1 (st_set _ _ _ _ S' a) H2) as (r2 & b2 & I2 & B2).
    apply In_nth_error in I1 as [n1 N1]. assert (In (r2, b2) (concat Ps)) as I2' by (apply in_concat; eauto). apply In_nth_error in I2' as [n2 N2].
    assert (n1 < length Q) by (apply nth_error_Some; congruence).
    apply (AP n1 (length Q + n2) (r1, b1) (r2, b2) ltac:(lia)) with (a := a).
    - rewrite nth_error_app1 by assumption. exact N1.
    - rewrite nth_error_app2 by lia. replace (length Q + n2 - length Q) with n2 by lia. exact N2.
    - split; assumption. }
  assert (apart_rows (concat Ps)) as AP2.
  { intros i j x y N Hi Hj. apply (AP (length Q + i) (length Q + j)); [lia| |]; (rewrite nth_error_app2 by lia);
      [replace (length Q + i - length Q) with i by lia|replace (length Q + j - length Q) with j by lia]; assumption. }
  specialize (IH AP2). intros [|i] [|j] p q N Hi Hj a [H1 H2]; cbn [nth_error] in Hi, Hj.
  - congruence.
  - injection Hi as <-. exact (X q j a Hj (conj H1 H2)).
  - injection Hj as <-. exact (X p i a Hi (conj H2 H1)).
  - apply (IH i j p q) with (a := a); try assumption; [congruence|split; assumption].
Qed.

(** C33: packing and dumping keeps, for every address of every row, the row's values
    other than the city; and whatever the dumped file says about an address is the
    view of a row that starts at or before it, all addresses from there on being held by
    rows that agree with it up to the city; disjoint rows stay disjoint. *)
Theorem C33_roundtrip : forall now today d bs, memable d bs ->
  exists txt out bs', mpack d = Ok txt /\ mdump now today txt = Ok out /\
    dFields out = [str "city"; str "province"; str "district"; str "isp"; str "country"; str "continent"] /\
    Forall2 (fun r b => net_is (cidr r) b /\ aligned b) (dIps out) bs' /\
    (forall r b a, In (r, b) (combine (dIps d) bs) -> in_block b a ->
       held (combine (dIps out) bs') a (fun v => uncity v = uncity (memip_view (dFields d) (fvals r)))) /\
    (forall r b a, In (r, b) (combine (dIps out) bs') -> in_block b a ->
       exists r0 b0, In (r0, b0) (combine (dIps d) bs) /\ fvals r = memip_view (dFields d) (fvals r0) /\ (base b0 <= a)%N /\
         forall c, (base b0 <= c <= a)%N ->
           held (combine (dIps d) bs) c (fun v => uncity (memip_view (dFields d) v) = uncity (fvals r))) /\
    (PropsIpdb.disjoint bs -> PropsIpdb.disjoint bs') /\
    vCount (dVersion out) = (N.of_nat (length (dIps out)) mod 2 ^ 32)%N /\
    (vIpType (dVersion d) <> 1%Z -> vIpType (dVersion out) = 2%Z) /\
    (vIpType (dVersion d) = 1%Z -> (forall r v, In r (dIps d) -> In v (fvals r) -> no_byte x3a v) -> vIpType (dVersion out) = 1%Z).
Proof.
  intros now today d bs [NE HN HV HF].
  assert (HR : Forall2 (row_ok (dFields d)) (dIps d) bs).
  { apply Forall2_rows; [assumption|]. eapply Forall_impl; [|exact HV]. intros r [H _]; exact H. }
  destruct (mpack_ranges d bs NE HR) as [out [Ps [EP [C G]]]].
  assert (LB : length (dIps d) = length bs) by (eapply Forall2_length; eassumption).
  (* every merged range and its rows *)
  assert (GI : forall rf, In rf out -> exists Q, stands (dFields d) (fst rf) (snd rf) Q /\ incl Q (combine (dIps d) bs)).
  { rewrite <- C. clear -G. induction G as [|rf Q out Ps S G IH]; intros rf0 []; [subst; exists Q; split; [assumption|cbn [concat]; apply incl_appl, incl_refl]|].
    destruct (IH rf0 H) as [Q0 [S0 I0]]. exists Q0. split; [assumption|]. cbn [concat]. apply incl_appr. assumption. }
  assert (GO : forall rb, In rb (combine (dIps d) bs) -> exists rf Q, In rf out /\ stands (dFields d) (fst rf) (snd rf) Q /\ In rb Q).
  { rewrite <- C. clear -G. induction G as [|rf Q out Ps S G IH]; intros rb I; [destruct I|]. cbn [concat] in I. apply in_app_or in I.
    destruct I as [I|I]; [exists rf, Q; split; [left; reflexivity|]; auto|]. destruct (IH rb I) as [rf0 [Q0 [I0 H0]]]. exists rf0, Q0. split; [right; assumption|assumption]. }
  assert (VW : forall rf, In rf out -> length (snd rf) = 6 /\ Forall clean (snd rf) /\
      ((forall r v, In r (dIps d) -> In v (fvals r) -> no_byte x3a v) -> Forall (no_byte x3a) (snd rf))).
  { intros rf I. destruct (GI rf I) as [Q [S IQ]]. destruct (st_first _ _ _ _ S) as [r0 [b0 [I0 [E0 _]]]]. rewrite <- E0.
    apply IQ in I0. apply in_combine_l in I0. rewrite Forall_forall in HV. destruct (HV r0 I0) as [_ HC].
    split; [reflexivity|]. split; [apply view_all; [apply words_clean|assumption]|].
    intros NC. apply view_all; [apply words_colon|]. apply Forall_forall. intros v Iv. eapply NC; eassumption. }
  assert (LEN : Forall (fun rf => length (rEnd (fst rf)) = 16) out).
  { apply Forall_forall. intros rf I. destruct (GI rf I) as [Q [S _]]. apply (st_len _ _ _ _ S). }
  assert (WF : Forall (fun rf => wf_range (fst rf)) out).
  { apply Forall_forall. intros rf I. destruct (GI rf I) as [Q [S _]]. apply (st_wf _ _ _ _ S). }
  (* the lines *)
  assert (HL : exists ls, Forall2 (written (vIpType (dVersion d) =? 1)%Z) out ls /\
      (vIpType (dVersion d) <> 1%Z -> Forall (fun l => has_colon l = true) ls) /\
      (vIpType (dVersion d) = 1%Z -> (forall r v, In r (dIps d) -> In v (fvals r) -> no_byte x3a v) -> Forall (fun l => has_colon l = false) ls)).
  { assert (HL1 : forall rf, In rf out -> exists l, written (vIpType (dVersion d) =? 1)%Z rf l /\
      (vIpType (dVersion d) <> 1%Z -> has_colon l = true) /\
      (vIpType (dVersion d) = 1%Z -> (forall r v, In r (dIps d) -> In v (fvals r) -> no_byte x3a v) -> has_colon l = false)).
    { intros [rg f] I. destruct (VW _ I) as [L6 [CL NC]]. destruct (GI _ I) as [Q [[W [L1 L2] SS ST SF] IQ]]. cbn [fst snd] in *.
      destruct HF as [[T H4]|[T [H6 _]]].
      - rewrite T. cbn [Z.eqb Pos.eqb].
        assert (V4 : forall a, in_range rg a -> is_v4 a).
        { intros a Ha. apply SS in Ha. destruct Ha as [r0 [b0 [I0 B0]]]. apply IQ, in_combine_r in I0. eapply H4; eassumption. }
        destruct W as [W1 W2 Le].
        destruct (line_v4 rg f L1 L2) as [l [E1 [E2 [E3 E4]]]]; try assumption; try (apply V4; unfold in_range; lia).
        exists l. split; [split; [assumption|split; assumption]|]. split; [congruence|]. intros _ NCV. auto.
      - destruct (Z.eqb_spec (vIpType (dVersion d)) 1) as [|_]; [congruence|].
        assert (V6 : ~ is_v4 (addr (rStart rg))).
        { destruct SF as [r0 [b0 [I0 [_ E0]]]]. rewrite <- E0. apply IQ, in_combine_r in I0. auto. }
        destruct (line_v6 rg f L1 L2 V6 L6 CL) as [l [E1 [E2 [E3 E4]]]].
        exists l. split; [split; [assumption|split; assumption]|]. split; [auto|congruence]. }
    clear -HL1. induction out as [|rf out IH]; [exists []; split; [constructor|split; constructor]|].
    destruct (HL1 rf (or_introl eq_refl)) as [l [E1 [E2 E3]]].
    destruct IH as [ls [F1 [F2 F3]]]; [intros rf' I; apply HL1; right; assumption|].
    exists (l :: ls). split; [constructor; assumption|]. split; [intros T; constructor; auto|intros T NC; constructor; auto]. }
  destruct HL as [ls [HW [HC1 HC2]]].
  destruct (mem_lines_spec _ _ _ HW) as [E1 E2].
  assert (E3 : mem_rows ls = Ok out).
  { eapply mem_rows_spec; [eassumption|assumption|]. eapply ends_ok; [eassumption|]. rewrite C.
    apply (removelast_combine (dIps d) bs (fun b => (base b + 2 ^ logsz b < 2 ^ 128)%N)); [assumption|].
    destruct HF as [[T H4]|[T [_ H6]]]; [|assumption].
    apply Forall_forall. intros b I.
    assert (I' : In b bs).
    { clear -I. destruct bs as [|b0 bs]; [destruct I|]. rewrite (@app_removelast_last _ (b0 :: bs) b0) by discriminate. apply in_or_app. left. assumption. }
    pose proof (pow_pos (logsz b)). assert (V : is_v4 (base b + 2 ^ logsz b - 1)%N) by (apply (H4 b); [assumption|unfold in_block; lia]).
    unfold is_v4, v4base in V. lia. }
  destruct (mem_split_spec out WF) as [rows [bs' [E4 [N' [A [B DJ]]]]]].
  assert (exists l0 r, ls = l0 :: r) as [l0 [lr EL]].
  { destruct ls as [|l0 lr]; [|eauto]. exfalso. inversion HW; subst. inversion G; subst. cbn [concat] in C.
    destruct (dIps d) as [|x y]; [congruence|]. destruct bs; [discriminate LB|discriminate C]. }
  eexists (unlines ls), (mkData memFields (mkVersion (if has_colon l0 then 2 else 1)%Z (N.of_nat (length rows) mod 2 ^ 32)%N now today [] []) rows), bs'.
  split; [rewrite EP; exact E1|]. split.
  { unfold mdump. rewrite E2, E3. cbn [bind]. rewrite E4. cbn [bind]. rewrite EL. reflexivity. }
  cbn [dFields dIps dVersion vCount vIpType]. split; [reflexivity|]. split; [assumption|]. split; [|split; [|split; [|split; [reflexivity|split]]]].
  - intros r b a I Ha. destruct (GO _ I) as [[rg f] [Q [If [S IQ]]]]. cbn [fst snd] in *.
    assert (IR : in_range rg a) by (apply (st_set _ _ _ _ S); eauto).
    destruct (B rg f a If IR) as [r' [b' [I' [H' E']]]]. exists r', b'. split; [assumption|]. split; [assumption|].
    rewrite E'. symmetry. apply (st_tail _ _ _ _ S r b IQ).
  - intros r b a I Ha. destruct (A r b I) as [rg [If H]]. destruct (GI _ If) as [Q [S IQ]]. cbn [fst snd] in *.
    destruct (st_first _ _ _ _ S) as [r0 [b0 [I0 [E0 E0']]]]. specialize (H a Ha).
    exists r0, b0. split; [apply IQ; assumption|]. split; [symmetry; assumption|]. unfold in_range in H. split; [lia|].
    intros c Hc. assert (IR : in_range rg c) by (unfold in_range; lia). apply (st_set _ _ _ _ S) in IR.
    destruct IR as [r1 [b1 [I1 H1]]]. exists r1, b1. split; [apply IQ; assumption|]. split; [assumption|].
    apply (st_tail _ _ _ _ S r1 b1 I1).
  - intros DB. apply DJ. eapply stands_apart; [exact G|]. rewrite C. exact (combine_apart (dIps d) bs DB).
  - intros T. specialize (HC1 T). rewrite EL in HC1. inversion HC1; subst. rewrite H1. reflexivity.
  - intros T NC. specialize (HC2 T NC). rewrite EL in HC2. inversion HC2; subst. rewrite H1. reflexivity.
Qed.
Print Assumptions C33_roundtrip.

(** C26 for memip: packing crashes exactly on datasets without rows, if rows have a
    value per column and an IPv4 dataset holds IPv4 networks. *)
Theorem C26_memip_crashes_iff_empty : forall d bs,
  Forall2 (fun r b => net_is (cidr r) b /\ aligned b) (dIps d) bs ->
  Forall (fun r => length (fvals r) = length (dFields d)) (dIps d) ->
  (vIpType (dVersion d) = 1%Z -> forall b a, In b bs -> in_block b a -> is_v4 a) ->
  (mpack d = Panic <-> dIps d = []) /\ (dIps d <> [] -> exists txt, mpack d = Ok txt).
Proof.
  intros d bs HN HV H4.
  assert (OK : dIps d <> [] -> exists txt, mpack d = Ok txt).
  { intros NE. destruct (mpack_ranges d bs NE (Forall2_rows d bs HN HV)) as [out [Ps [EP [C G]]]]. rewrite EP.
    destruct (Z.eqb_spec (vIpType (dVersion d)) 1) as [T|T].
    - specialize (H4 T). assert (I : incl (concat Ps) (combine (dIps d) bs)) by (rewrite C; apply incl_refl).
      clear -G I H4. induction G as [|[r f] Q out Ps S G IH]; [exists []; reflexivity|].
      cbn [concat] in I. destruct IH as [txt E]; [intros x Hx; apply I, in_or_app; auto|].
      cbn [mem_lines fst snd] in *. destruct S as [[W1 W2 Le] [L1 L2] SS _ _].
      assert (V4 : forall a, in_range r a -> is_v4 a).
      { intros a Ha. apply SS in Ha. destruct Ha as [r0 [b0 [I0 B0]]]. assert (In (r0, b0) (combine (dIps d) bs)) as I1 by (apply I, in_or_app; auto).
        apply in_combine_r in I1. eapply H4; eassumption. }
      unfold mem_line. cbn [fst snd]. rewrite !IPv4ToUint32_v4 by (assumption || (apply V4; unfold in_range; lia)). cbn [bind]. rewrite E. cbn [bind]. eauto.
    - clear. induction out as [|rf out [txt E]]; [exists []; reflexivity|]. cbn [mem_lines mem_line]. cbn [bind]. rewrite E. cbn [bind]. eauto. }
  split; [|exact OK]. split.
  - intros P. destruct (dIps d) as [|x l]; [reflexivity|]. destruct OK as [txt E]; [discriminate|]. congruence.
  - intros E. unfold mpack. rewrite E. reflexivity.
Qed.
Print Assumptions C26_memip_crashes_iff_empty.

(** A concrete dataset of C33: two adjacent networks, differing in the city only. *)
Definition demo : IpData :=
  mkData [str "country"; str "province"; str "city"; str "isp"; str "continent"]
         (mkVersion 1 2 0 [] [] [])
         [ mkRaw (mkNet [x01; x00; x00; x00] [xff; xff; xff; x00]) [str "中国"; str "浙江"; str "杭州"; str "电信"; str "AS"];
           mkRaw (mkNet [x01; x00; x01; x00] [xff; xff; xff; x00]) [str "中国"; str "浙江"; str "宁波"; str "电信"; str "AS"] ].
Definition demo_blocks : list block := [mkBlock (v4base + 2 ^ 24) 8; mkBlock (v4base + 2 ^ 24 + 256) 8].
Ltac lit_no := let H := fresh in intros H; cbn in H; repeat (destruct H as [H|H]; [discriminate H|]); exact H.
Ltac lit_net := split; [constructor; [left; reflexivity|reflexivity|vm_compute; discriminate|vm_compute; reflexivity|vm_compute; reflexivity]|vm_compute; reflexivity].
Example C33_case : memable demo demo_blocks.
Proof.
  constructor.
  - discriminate.
  - repeat (constructor; [lit_net|]). constructor.
  - repeat (constructor; [split; [reflexivity|]; repeat (constructor; [repeat split; try lit_no; reflexivity|]); constructor|]). constructor.
  - left. split; [reflexivity|]. intros b a [<-|[<-|[]]]; unfold in_block, is_v4; cbn [base logsz];
    change (v4base + 2 ^ 24)%N with 281470698520576%N; change (2 ^ 8)%N with 256%N; change v4base with 281470681743360%N; lia.
Qed.

(** C33, finding: the city of the second network is lost; its addresses get 杭州. *)
Theorem C33_city_refuted : exists txt out r b,
  mpack demo = Ok txt /\ mdump 0 [] txt = Ok out /\ In r (dIps out) /\ net_is (cidr r) b /\
  in_block b (addr [x01; x00; x01; x05]) /\ nth 0 (fvals r) [] = str "杭州" /\
  forall r', In r' (dIps out) -> nth 0 (fvals r') [] <> str "宁波".
Proof.
  eexists.
  exists (mkData memFields (mkVersion 1 1 0 [] [] []) [mkRaw (mkNet (IPv4 x01 x00 x00 x00) (repeat xff 14 ++ [xfe; x00])) [str "杭州"; str "浙江"; str "默认"; str "电信"; str "中国"; str "亚洲"]]).
  eexists _, (mkBlock (v4base + 2 ^ 24) 9). split; [vm_compute; reflexivity|]. split; [vm_compute; reflexivity|]. split; [left; reflexivity|].
  split; [constructor; try (right; reflexivity); try reflexivity; vm_compute; discriminate|].
  split; [split; vm_compute; (discriminate || reflexivity)|]. split; [reflexivity|].
  intros r' [<-|[]]. vm_compute. discriminate.
Qed.
Print Assumptions C33_city_refuted.

(** C33, finding: a colon in a value of the first row makes an IPv4 file look like IPv6. *)
Theorem C33_colon_refuted : exists d bs txt out, memable d bs /\ vIpType (dVersion d) = 1%Z /\
  mpack d = Ok txt /\ mdump 0 [] txt = Ok out /\ vIpType (dVersion out) = 2%Z.
Proof.
  exists (mkData [str "city"] (mkVersion 1 1 0 [] [] []) [mkRaw (mkNet [x01; x00; x00; x00] [xff; xff; xff; x00]) [str "a:b"]]).
  exists [mkBlock (v4base + 2 ^ 24) 8]. eexists _, _. split; [constructor|].
  - discriminate.
  - repeat (constructor; [lit_net|]). constructor.
  - repeat (constructor; [split; [reflexivity|]; repeat (constructor; [repeat split; try lit_no; reflexivity|]); constructor|]). constructor.
  - left. split; [reflexivity|]. intros b a [<-|[]]; unfold in_block, is_v4; cbn [base logsz];
    change (v4base + 2 ^ 24)%N with 281470698520576%N; change (2 ^ 8)%N with 256%N; change v4base with 281470681743360%N; lia.
  - split; [reflexivity|]. split; [vm_compute; reflexivity|]. split; [vm_compute; reflexivity|]. reflexivity.
Qed.
Print Assumptions C33_colon_refuted.

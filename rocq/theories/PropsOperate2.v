(** Properties of the dataset operations, continued: C28 (rest), C29, C30, C48. *)
From Coq Require Import Permutation.
From Verif Require Import IpNet Inf Spec SpecIpdb Tables Operate SpecOperate OperateProofs OperateProofs2 MergeProofs PropsOperate.
Open Scope nat_scope.

(** C28: the result does not depend on the map order when no AS number is used by
    two main operators. *)
Lemma trimmed_fun rows pi pa v v1 v2 :
  (forall r r', In r rows -> In r' rows -> main_operator (nth pi (fvals r) []) -> main_operator (nth pi (fvals r') []) ->
     nth pa (fvals r) [] = nth pa (fvals r') [] -> nth pi (fvals r) [] = nth pi (fvals r') []) ->
  trimmed rows pi pa v v1 -> trimmed rows pi pa v v2 -> v1 = v2.
Proof.
  intros U [[N1 (r1 & I1 & M1 & A1 & ->)]|[H1 ->]] [[N2 (r2 & I2 & M2 & A2 & ->)]|[H2 ->]].
  - f_equal. apply U; try assumption. congruence.
  - exfalso. destruct H2 as [H2|H2]; [contradiction|]. apply (H2 r1 I1 M1 A1).
  - exfalso. destruct H1 as [H1|H1]; [contradiction|]. apply (H1 r2 I2 M2 A2).
  - reflexivity.
Qed.

Theorem C28_unique_operator : forall order order' d pi pa,
  (forall k m, Permutation (order k m) m) -> (forall k m, Permutation (order' k m) m) -> legal d ->
  only_column (str "isp") (dFields (contents d)) pi -> only_column (str "asn") (dFields (contents d)) pa ->
  pi <> 0 -> pa <> 0 ->
  Forall (fun r => pi < length (fvals r) /\ pa < length (fvals r)) (dIps (contents d)) ->
  (forall r r', In r (dIps (contents d)) -> In r' (dIps (contents d)) ->
     main_operator (nth pi (fvals r) []) -> main_operator (nth pi (fvals r') []) ->
     nth pa (fvals r) [] = nth pa (fvals r') [] -> nth pi (fvals r) [] = nth pi (fvals r') []) ->
  exists d1 d2, TrimAsnIspDup order d = Ok d1 /\ TrimAsnIspDup order' d = Ok d2 /\ contents d1 = contents d2.
Proof.
  intros order order' d pi pa P1 P2 Lg C1 C2 N1 N2 W U.
  destruct (C28_trim order d pi pa P1 Lg C1 C2 N1 N2 W) as (d1 & E1 & _ & F1 & V1 & R1).
  destruct (C28_trim order' d pi pa P2 Lg C1 C2 N1 N2 W) as (d2 & E2 & _ & F2 & V2 & R2).
  exists d1, d2. split; [assumption|]. split; [assumption|].
  assert (dIps (contents d1) = dIps (contents d2)) as R.
  { revert R1 R2. generalize (dIps (contents d1)) (dIps (contents d2)). 
    assert (forall rows l l1 l2, 
      (forall r r', In r rows -> In r' rows ->
     main_operator (nth pi (fvals r) []) -> main_operator (nth pi (fvals r') []) ->
     nth pa (fvals r) [] = nth pa (fvals r') [] -> nth pi (fvals r) [] = nth pi (fvals r') []) ->
     Forall2 (fun r r' => cidr r' = cidr r /\ trimmed rows pi pa (fvals r) (fvals r')) l l1 ->
     Forall2 (fun r r' => cidr r' = cidr r /\ trimmed rows pi pa (fvals r) (fvals r')) l l2 -> l1 = l2) as G.
    { clear. intros rows l l1 l2 U H1. revert l2. induction H1 as [|r r1 l l1 [A1 B1] H1 IH]; intros l2 H2; inversion H2 as [|? r2 ? l2' [A2 B2] H2']; subst; [reflexivity|].
      f_equal; [|apply IH; assumption]. destruct r1 as [c1 f1], r2 as [c2 f2]. cbn [cidr fvals] in *. f_equal; [congruence|].
      eapply trimmed_fun; eassumption. }
    intros l1 l2 R1 R2. exact (G _ _ _ _ U R1 R2). }
  destruct (contents d1), (contents d2). cbn in *. congruence.
Qed.
Print Assumptions C28_unique_operator.

(** C28, finding: with two operators on one AS number the result depends on the order. *)
Definition trim_example : HData :=
  mkH [str "country"; str "isp"; str "asn"] (mkVersion 1 3 0 [] [] [])
      [(mkNet [] [], mkSlc 0 3); (mkNet [] [], mkSlc 1 3); (mkNet [] [], mkSlc 2 3)]
      [[str "中国"; str "电信"; str "4134"]; [str "中国"; str "联通"; str "4134"]; [str "中国"; str "x"; str "4134"]].
Theorem C28_order_matters_refuted :
  exists d order order' d1 d2,
    (forall k m, Permutation (order k m) m) /\ (forall k m, Permutation (order' k m) m) /\ legal d /\
    TrimAsnIspDup order d = Ok d1 /\ TrimAsnIspDup order' d = Ok d2 /\ contents d1 <> contents d2.
Proof.
  exists trim_example, (fun _ m => m), (fun _ m => rev m). do 2 eexists.
  split; [reflexivity|]. split; [intros; apply Permutation_sym, Permutation_rev|].
  split; [repeat constructor|]. split; [vm_compute; reflexivity|]. split; [vm_compute; reflexivity|]. discriminate.
Qed.
Print Assumptions C28_order_matters_refuted.
Example C28_case : legal trim_example /\ only_column (str "isp") (hFields trim_example) 1 /\
  only_column (str "asn") (hFields trim_example) 2 /\
  Forall (fun r => 1 < length (fvals r) /\ 2 < length (fvals r)) (dIps (contents trim_example)).
Proof.
  repeat split; try (repeat constructor; fail).
  - intros [|[|[|[|j]]]] H; try discriminate; reflexivity.
  - intros [|[|[|[|j]]]] H; try discriminate; reflexivity.
Qed.

(** C28, finding: a first or missing isp column makes it do nothing, and so does a
    first or missing asn column (when the rows have the isp column). *)
Theorem C28_first_column : forall order d,
  (nth_error (dFields (contents d)) 0 = Some (str "isp") /\ only_column (str "isp") (dFields (contents d)) 0 \/
   ~ In (str "isp") (dFields (contents d))) \/
  (exists pi, only_column (str "isp") (dFields (contents d)) pi /\ Forall (fun r => pi < length (fvals r)) (dIps (contents d)) /\
     (only_column (str "asn") (dFields (contents d)) 0 \/ ~ In (str "asn") (dFields (contents d)))) ->
  TrimAsnIspDup order d = Ok d.
Proof.
  intros order d H. cbn [contents dFields dIps] in H. unfold TrimAsnIspDup.
  destruct H as [[[_ [A B]]|A]|(pi & [A B] & W & C)].
  - rewrite (last_index_only fISP (hFields d) 0 0 0 A B). reflexivity.
  - rewrite (last_index_absent fISP (hFields d) A). reflexivity.
  - rewrite (last_index_only fISP (hFields d) pi 0 0 A B). cbn [Nat.add].
    destruct (Nat.eqb_spec pi 0) as [|N]; [reflexivity|].
    assert (last_index fAsn (hFields d) 0 0 = 0) as ->.
    { destruct C as [[C D]|C]; [apply (last_index_only fAsn (hFields d) 0 0 0 C D)|apply (last_index_absent fAsn (hFields d) C)]. }
    assert (forall rows m, Forall (fun r => pi < length (fvals r)) (map (fun r : hrow => mkRaw (fst r) (view (hHeap d) (snd r))) rows) ->
      collect_asn (hHeap d) pi 0 rows m = Ok m) as G.
    { clear. induction rows as [|[n s] rows IH]; intros m W; [reflexivity|]. cbn [map] in W. inversion W; subst. cbn [fvals snd] in *.
      cbn [collect_asn]. rewrite idx_b by assumption. cbn [bind Nat.eqb]. apply IH. assumption. }
    rewrite (G _ _ W). reflexivity.
Qed.
Print Assumptions C28_first_column.

(* ------------------------------------------------------------------ *)
(** C29 *)
Lemma rect_len d r : legal d -> rectangular (contents d) -> In r (hRows d) ->
  legal_slc (hHeap d) (snd r) /\ sLen (snd r) = length (hFields d) /\ length (view (hHeap d) (snd r)) = length (hFields d).
Proof.
  intros L R Hr. unfold legal in L. rewrite Forall_forall in L. specialize (L r Hr).
  unfold rectangular in R. cbn [contents dIps dFields] in R. rewrite Forall_forall in R.
  specialize (R (mkRaw (fst r) (view (hHeap d) (snd r)))). cbn [fvals] in R.
  assert (length (view (hHeap d) (snd r)) = length (hFields d)) as E.
  { apply R. apply in_map_iff. exists r. auto. }
  split; [assumption|]. split; [|assumption]. rewrite <- E. symmetry. apply view_length. assumption.
Qed.

Lemma district_spec p : has_district p (district_of p).
Proof.
  unfold has_district, district_of.
  assert (forall q, In q provinceDistrict -> fst q <> []) as N.
  { apply Forall_forall. repeat constructor; discriminate. }
  destruct p as [|c p].
  - right. split; [reflexivity|]. intros y H. apply (N _ H). reflexivity.
  - destruct (assoc (c :: p) provinceDistrict) as [x|] eqn:E.
    + left. apply assoc_In. assumption.
    + right. split; [reflexivity|]. apply assoc_None. assumption.
Qed.

Lemma offset_some f l i : offset_of f l = Some i -> nth_error l i = Some f.
Proof. intros H. apply offset_of_Some in H. tauto. Qed.

Lemma offset_app f g l : offset_of f l = None -> offset_of g (l ++ [f]) = match offset_of g l with Some i => Some i | None => if bytes_eqb f g then Some (length l) else None end.
Proof.
  intros _. induction l as [|x l IH]; cbn; [destruct (bytes_eqb f g); reflexivity|].
  destruct (bytes_eqb x g); [reflexivity|]. rewrite IH. destruct (offset_of g l); [reflexivity|].
  destruct (bytes_eqb f g); reflexivity.
Qed.
Lemma offset_first f l i : nth_error l i = Some f -> (forall j, j < i -> nth_error l j <> Some f) -> offset_of f l = Some i.
Proof.
  revert i; induction l as [|x l IH]; intros [|i] H1 H2; try discriminate; cbn.
  - injection H1 as ->. rewrite bytes_eqb_refl. reflexivity.
  - destruct (bytes_eqb_spec x f) as [->|N]; [exfalso; apply (H2 0); [lia|reflexivity]|].
    rewrite (IH i H1); [reflexivity|]. intros j Hj. apply (H2 (S j)). lia.
Qed.
Lemma offset_absent f l : ~ In f l -> offset_of f l = None.
Proof. intros H. destruct (offset_of f l) as [i|] eqn:E; [|reflexivity]. exfalso. apply H. apply offset_some in E. eapply nth_error_In; eassumption. Qed.

(** Column i is the first one with this name. *)
Definition column_at (f : bytes) (fields : list bytes) (i : nat) : Prop :=
  nth_error fields i = Some f /\ forall j, j < i -> nth_error fields j <> Some f.

Lemma rows_forall2 (P : IpRaw -> IpRaw -> Prop) (d : HData) rows' :
  (Forall2 P (dIps (contents d)) rows') <->
  Forall2 (fun r => P (mkRaw (fst r) (view (hHeap d) (snd r)))) (hRows d) rows'.
Proof.
  cbn [contents dIps]. split.
  - revert rows'. induction (hRows d) as [|r l IH]; intros rows' H; cbn [map] in H; inversion H; subst; constructor; auto.
  - induction 1; cbn [map]; constructor; auto.
Qed.

Lemma map_forall2 {A B} (f : A -> B) (P : A -> B -> Prop) l : (forall x, In x l -> P x (f x)) -> Forall2 P l (map f l).
Proof. induction l as [|x l IH]; intros H; cbn; constructor; [apply H; left; reflexivity|apply IH; intros y Hy; apply H; right; assumption]. Qed.

(** The district of the province appears in a new last column ... *)
Theorem C29_district_added : forall grow d pp, legal d -> rectangular (contents d) ->
  column_at (str "province") (dFields (contents d)) pp -> ~ In (str "district") (dFields (contents d)) ->
  exists d', AttachDistrict grow d = Ok d' /\ legal d' /\ rectangular (contents d') /\
    dFields (contents d') = dFields (contents d) ++ [str "district"] /\ dVersion (contents d') = dVersion (contents d) /\
    Forall2 (fun r r' => cidr r' = cidr r /\ exists x, has_district (nth pp (fvals r) []) x /\ fvals r' = fvals r ++ [x])
            (dIps (contents d)) (dIps (contents d')).
Proof.
  intros grow d pp Lg Rc [C1 C2] ND. cbn [contents dFields] in C1, C2, ND. unfold AttachDistrict.
  rewrite (offset_absent fDistrict _ ND).
  rewrite (offset_app fDistrict fProvince (hFields d) (offset_absent _ _ ND)), (offset_first fProvince _ _ C1 C2).
  assert (pp < length (hFields d)) as Lp by (apply nth_error_Some; congruence).
  destruct (each_row_app grow (fun _ _ v => let* p := idx v pp in Ok (App (district_of p)))
              (fun _ v => App (district_of (nth pp v []))) (hHeap d) (hRows d) Lg) as (h' & rows' & E & Lg' & M).
  - intros k n s Hin. destruct (rect_len d _ Lg Rc Hin) as (A & B & C). cbn [snd] in *. rewrite idx_b by lia. reflexivity.
  - intros. exact I.
  - intros n s n' s' H H' Ea. right. destruct (rect_len d _ Lg Rc H) as (A & B & C). destruct (rect_len d _ Lg Rc H') as (A' & B' & C').
    cbn [snd] in *. split; [congruence|]. unfold view. rewrite Ea, B, B'. reflexivity.
  - match type of E with ?x = _ => change (each_row grow (fun _ _ v => let* p := idx v pp in Ok (App (district_of p))) 0 (hHeap d) (hRows d)) with x end.
    rewrite E. cbn [bind]. eexists. split; [reflexivity|]. split; [exact Lg'|].
    cbn [contents hFields hVersion hRows hHeap dFields dVersion dIps].
    assert (Forall2 (fun r r' => cidr r' = cidr r /\ exists x, has_district (nth pp (fvals r) []) x /\ fvals r' = fvals r ++ [x])
            (dIps (contents d)) (map (fun r => mkRaw (fst r) (view h' (snd r))) rows')) as F.
    { rewrite M. apply rows_forall2. apply map_forall2. intros r Hr. cbn [cidr fvals applied]. split; [reflexivity|].
      eexists. split; [apply district_spec|reflexivity]. }
    split; [|split; [reflexivity|split; [reflexivity|exact F]]].
    unfold rectangular in *. cbn [contents hFields hVersion hRows hHeap dIps dFields]. rewrite app_length. cbn [length].
    cbn [contents dFields] in Rc. clear - F Rc. cbn [contents dIps] in F, Rc.
    revert F. generalize (map (fun r => mkRaw (fst r) (view h' (snd r))) rows'). intros l' F.
    revert F. revert Rc. generalize (map (fun r => mkRaw (fst r) (view (hHeap d) (snd r))) (hRows d)). intros l Rc F.
    induction F as [|r r' l l' [_ (x & _ & E)] F IH]; [constructor|]. inversion Rc; subst. constructor; [|auto].
    rewrite E, app_length, H1. reflexivity.
Qed.
Print Assumptions C29_district_added.

(** ... or in the existing district column. *)
Theorem C29_district_set : forall grow d pp pd, legal d -> rectangular (contents d) ->
  column_at (str "province") (dFields (contents d)) pp -> column_at (str "district") (dFields (contents d)) pd ->
  exists d', AttachDistrict grow d = Ok d' /\ legal d' /\ rectangular (contents d') /\
    dFields (contents d') = dFields (contents d) /\ dVersion (contents d') = dVersion (contents d) /\
    Forall2 (fun r r' => cidr r' = cidr r /\ exists x, has_district (nth pp (fvals r) []) x /\ fvals r' = with_col (fvals r) pd x)
            (dIps (contents d)) (dIps (contents d')).
Proof.
  intros grow d pp pd Lg Rc [C1 C2] [C3 C4]. cbn [contents dFields] in C1, C2, C3, C4. unfold AttachDistrict.
  rewrite (offset_first fDistrict _ _ C3 C4), (offset_first fProvince _ _ C1 C2).
  assert (pp < length (hFields d)) as Lp by (apply nth_error_Some; congruence).
  assert (pd < length (hFields d)) as Ld by (apply nth_error_Some; congruence).
  assert (pd <> pp) as NE by (intros ->; rewrite C1 in C3; discriminate C3).
  set (L := fun r : hrow => Some (district_of (nth pp (view (hHeap d) (snd r)) []))).
  destruct (each_row_column grow (fun _ _ v => let* p := idx v pp in Ok (Put pd (district_of p))) (hHeap d) (hRows d) pd L Lg)
    as (h' & E & Lg' & V).
  - intros r Hr. destruct (rect_len d r Lg Rc Hr) as (A & B & C). lia.
  - intros k n s v Hin Hv. destruct (rect_len d _ Lg Rc Hin) as (A & B & C). cbn [snd] in *.
    assert (length v = length (hFields d) /\ nth pp v [] = nth pp (view (hHeap d) s) []) as [Lv Nv].
    { destruct Hv as [->|[l ->]]; [auto|]. rewrite upd_length, nth_upd_ne by assumption. auto. }
    rewrite idx_b by lia. cbn [bind]. rewrite Nv. reflexivity.
  - rewrite E. cbn [bind]. eexists. split; [reflexivity|]. split; [exact Lg'|].
    cbn [contents hFields hVersion hRows hHeap dFields dVersion dIps].
    assert (Forall2 (fun r r' => cidr r' = cidr r /\ exists x, has_district (nth pp (fvals r) []) x /\ fvals r' = with_col (fvals r) pd x)
            (dIps (contents d)) (map (fun r => mkRaw (fst r) (view h' (snd r))) (hRows d))) as F.
    { apply rows_forall2. apply map_forall2. intros r Hr. cbn [cidr fvals]. split; [reflexivity|].
      destruct (rect_len d r Lg Rc Hr) as (A & B & C).
      exists (district_of (nth pp (view (hHeap d) (snd r)) [])). split; [apply district_spec|].
      rewrite (V (snd r)) by (apply in_map; assumption). unfold written.
      pose proof (last_write_spec L (hRows d) (sArr (snd r))) as LW.
      destruct (last_write L (hRows d) (sArr (snd r))) as [l|].
      - destruct LW as (i & r0 & H1 & H2 & H3 & _). unfold L in H3. injection H3 as <-.
        destruct (rect_len d r0 Lg Rc (nth_error_In _ _ H1)) as (A0 & B0 & C0).
        rewrite upd_with_col by lia. f_equal. f_equal. f_equal. unfold view. rewrite H2, B, B0. reflexivity.
      - specialize (LW r Hr eq_refl). discriminate LW. }
    split; [|split; [reflexivity|split; [reflexivity|exact F]]].
    unfold rectangular in *. cbn [contents hFields hVersion hRows hHeap dIps dFields]. cbn [contents dFields] in Rc. clear - F Rc Ld.
    cbn [contents dIps] in F, Rc.
    revert F. generalize (map (fun r => mkRaw (fst r) (view h' (snd r))) (hRows d)). intros l' F.
    revert F. revert Rc. generalize (map (fun r => mkRaw (fst r) (view (hHeap d) (snd r))) (hRows d)). intros l Rc F.
    induction F as [|r r' l l' [_ (x & _ & E)] F IH]; [constructor|]. inversion Rc; subst. constructor; [|auto].
    rewrite E, <- upd_with_col, upd_length by lia. assumption.
Qed.
Print Assumptions C29_district_set.

(** C29, finding: without a province column the new column has no values. *)
Theorem C29_no_province : forall grow d, ~ In (str "province") (dFields (contents d)) -> ~ In (str "district") (dFields (contents d)) ->
  exists d', AttachDistrict grow d = Ok d' /\
    dFields (contents d') = dFields (contents d) ++ [str "district"] /\ dVersion (contents d') = dVersion (contents d) /\
    dIps (contents d') = dIps (contents d) /\
    (rectangular (contents d) -> dIps (contents d) <> [] -> ~ rectangular (contents d')).
Proof.
  intros grow d H1 H2. cbn [contents dFields] in H1, H2. unfold AttachDistrict. rewrite (offset_absent fDistrict _ H2).
  rewrite (offset_app fDistrict fProvince (hFields d) (offset_absent _ _ H2)), (offset_absent fProvince _ H1).
  change (bytes_eqb fDistrict fProvince) with false. cbv iota.
  eexists. split; [reflexivity|]. split; [reflexivity|]. split; [reflexivity|]. split; [reflexivity|].
  intros R N R'. unfold rectangular in *. cbn [contents hFields hRows hHeap dFields dIps] in *.
  destruct (hRows d) as [|r l]; [contradiction N; reflexivity|]. cbn [map] in *. inversion R; inversion R'; subst.
  rewrite app_length in *. cbn in *. lia.
Qed.
Print Assumptions C29_no_province.

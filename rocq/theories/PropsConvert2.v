(** Property theorem C57 for the converter's own operations. *)
From Verif Require Import Base NetIP IpNet Spec IpNetProofs SplitProofs IpNetProofs2 Inf Ipdb SpecIpdb SpecExport Export ExportProofs BuildProofs Bits.
From Verif Require Import TrieProofs WriterProofs ReaderProofs OpenProofs PackProofs PropsIpdb DumpProofs PropsExport PropsDump.
From Verif Require Import Json JsonProofs PropsJson.
From Verif Require Import Tables Operate SpecOperate OperateProofs OperateProofs2 MergeProofs MergeProofs2 PropsMerge PropsOperate PropsOperate2 PropsOperate3 NetText NetTextProofs Plain SpecText PlainProofs PropsPlain Memip AwDecode AwTree Facade PropsFacade2 PropsFacade3 ConvertProofs ConvertProofs2 FastOpen PropsConvert.
From Coq Require Import Permutation.
Open Scope nat_scope.

(* ---------- list facts ---------- *)
Lemma Forall2_nth {A B} (R : A -> B -> Prop) l m : Forall2 R l m -> forall k x, nth_error l k = Some x -> exists y, nth_error m k = Some y /\ R x y.
Proof. induction 1 as [|a b l m H F IH]; intros [|k] x Hx; cbn in *; try discriminate; [exists b; split; congruence|auto]. Qed.
Lemma Forall2_nth' {A B} (R : A -> B -> Prop) l m : Forall2 R l m -> forall k y, nth_error m k = Some y -> exists x, nth_error l k = Some x /\ R x y.
Proof. induction 1 as [|a b l m H F IH]; intros [|k] x Hx; cbn in *; try discriminate; [exists a; split; congruence|auto]. Qed.
Lemma nth_Forall2 {A B} (R : A -> B -> Prop) l m : length l = length m ->
  (forall k x y, nth_error l k = Some x -> nth_error m k = Some y -> R x y) -> Forall2 R l m.
Proof.
  revert m. induction l as [|a l IH]; intros [|b m] L H; try discriminate; constructor.
  - apply (H 0); reflexivity.
  - apply IH; [cbn in L; lia|]. intros k. apply (H (S k)).
Qed.

Lemma Forall2_in_impl {A B} (R Q : A -> B -> Prop) l m : (forall x y, In x l -> R x y -> Q x y) -> Forall2 R l m -> Forall2 Q l m.
Proof. intros H F. induction F as [|x y l m Hxy F IH]; constructor; [apply H; [left; reflexivity|assumption]|apply IH; intros; apply H; [right; assumption|assumption]]. Qed.
Lemma NoDup_app_snoc {A} (l : list A) x : NoDup l -> ~ In x l -> NoDup (l ++ [x]).
Proof.
  induction 1 as [|a l Na N IH]; intros Nx; [repeat constructor; intros []|]. cbn. constructor.
  - intros I. apply in_app_or in I as [I|[->|[]]]; [contradiction|]. apply Nx. left. reflexivity.
  - apply IH. intros I. apply Nx. right. assumption.
Qed.

(* ---------- one row ---------- *)
(** What the operations make of the values v of a row; rows is the whole dataset, line the
    line that is attached to it (None without a line database). *)
Record row_improved (line : option bytes) (F : list bytes) (rows : list IpRaw) (v F' v' : list bytes) : Prop := {
  ri_names : forall f, f <> str "isp" -> f <> str "district" -> (line = None \/ f <> str "line") ->
    normal_name f (fval f F v) (fval f F' v');
  ri_line : forall x, line = Some x -> fval (str "line") F' v' = x;
  ri_district : has_district (fval (str "province") F' v') (fval (str "district") F' v');
  ri_isp : exists n, normal_name (str "isp") (fval (str "isp") F v) n /\
    ((fval (str "isp") F' v' = n /\
      (main_operator n \/ forall r x, In r rows -> main_operator x -> normal_name (str "isp") (fval (str "isp") F (fvals r)) x ->
                            fval (str "asn") F (fvals r) <> fval (str "asn") F v)) \/
     (~ main_operator n /\ main_operator (fval (str "isp") F' v') /\
      exists r, In r rows /\ fval (str "asn") F (fvals r) = fval (str "asn") F v /\
                normal_name (str "isp") (fval (str "isp") F (fvals r)) (fval (str "isp") F' v'))) }.

(* ---------- appending to full slices ---------- *)
Lemma replace_cells_caps tab n : forall h s i a, length (arr (replace_cells tab h s i n) a) = length (arr h a).
Proof.
  induction n as [|n IH]; intros h s i a; [reflexivity|]. cbn [replace_cells]. rewrite IH.
  destruct (tab i); [|reflexivity]. destruct (assoc _ _); [apply arr_length_hset|reflexivity].
Qed.
Lemma shortage_full d : Forall (full d) (hRows d) -> Forall (full (ReplaceShortage NormalizedMap d)) (hRows (ReplaceShortage NormalizedMap d)).
Proof.
  intros H. change (hRows (ReplaceShortage NormalizedMap d)) with (hRows d).
  assert (forall a, length (arr (hHeap (ReplaceShortage NormalizedMap d)) a) = length (arr (hHeap d) a)) as Hc.
  { intros a. unfold ReplaceShortage. cbn [hHeap]. generalize (hHeap d). induction (hRows d) as [|x l IH]; intros h; [reflexivity|].
    cbn [fold_left]. rewrite IH; [apply replace_cells_caps|]. inversion H. assumption. }
  eapply Forall_impl; [|exact H]. intros r Hr. unfold full in *. rewrite Hc. assumption.
Qed.
Lemma each_row_caps grow body : (forall k n v a, body k n v = Ok a -> match a with App _ => False | _ => True end) ->
  forall rows k h h' rows', each_row grow body k h rows = Ok (h', rows') -> rows' = rows /\ forall a, length (arr h' a) = length (arr h a).
Proof.
  intros B. induction rows as [|[n s] rows IH]; intros k h h' rows' E; cbn [each_row] in E.
  { assert (h' = h /\ rows' = []) as [-> ->] by (split; congruence). auto. }
  destruct (body k n (view h s)) as [a| | |] eqn:Eb; try discriminate E. cbn [bind] in E. apply B in Eb.
  destruct (perform grow h s a) as [[h1 s1]| | |] eqn:Ep; try discriminate E. cbn [bind] in E.
  destruct (each_row grow body (S k) h1 rows) as [[h2 r2]| | |] eqn:Er; try discriminate E. cbn [bind] in E.
  apply IH in Er as [-> Hc].
  assert (h' = h2 /\ rows' = (n, s1) :: rows) as [-> ->] by (split; congruence).
  destruct a as [|i v|v]; [| |contradiction]; cbn [perform] in Ep.
  - assert (h1 = h /\ s1 = s) as [-> ->] by (split; congruence). auto.
  - destruct (i <? sLen s); [|discriminate Ep]. assert (h1 = hset h s i v /\ s1 = s) as [-> ->] by (split; congruence).
    split; [reflexivity|]. intros a. rewrite Hc. apply arr_length_hset.
Qed.
Lemma trim_full order d d' : TrimAsnIspDup order d = Ok d' -> Forall (full d) (hRows d) -> Forall (full d') (hRows d').
Proof.
  unfold TrimAsnIspDup. intros E H. destruct (last_index fISP _ _ _ =? 0); [assert (d' = d) as -> by congruence; assumption|].
  destruct (collect_asn _ _ _ _ _) as [m| | |]; try discriminate E. cbn [bind] in E.
  destruct (last_index fAsn _ _ _ =? 0); [assert (d' = d) as -> by congruence; assumption|].
  destruct (each_row _ _ _ _ _) as [[h rows]| | |] eqn:Er; try discriminate E. cbn [bind] in E.
  apply each_row_caps in Er as [-> Hc].
  - assert (d' = mkH (hFields d) (hVersion d) (hRows d) h) as -> by congruence. eapply Forall_impl; [|exact H].
    intros r Hr. unfold full in *. cbn [hHeap]. rewrite Hc. assumption.
  - intros k n v a Hb. destruct (idx v _) as [x| | |]; try discriminate Hb. cbn [bind] in Hb.
    destruct (idx v _) as [y| | |]; try discriminate Hb. cbn [bind] in Hb. destruct (in_array _ _).
    + assert (a = Keep) as -> by congruence. exact I.
    + destruct (asnMatchIsp _ _) as [|c w]; [assert (a = Keep) as -> by congruence; exact I|].
      assert (exists i x, a = Put i x) as (i & z & ->) by (eexists; eexists; injection Hb as <-; reflexivity). exact I.
Qed.
Lemma apply_ops_app a b d : apply_ops (a ++ b) d = let* d1 := apply_ops a d in apply_ops b d1.
Proof. revert d. induction a as [|op a IH]; intros d; [reflexivity|]. cbn [app apply_ops]. destruct (op d); cbn [bind]; auto. Qed.

(* ---------- the district ---------- *)
Lemma district_step grow d G pp : legal d -> rectangular (contents d) -> dFields (contents d) = G -> NoDup G -> nth_error G pp = Some (str "province") ->
  exists d' F', AttachDistrict grow d = Ok d' /\ dFields (contents d') = F' /\ NoDup F' /\ incl G F' /\
    (forall f, In f F' -> In f G \/ f = str "district") /\ dVersion (contents d') = dVersion (contents d) /\
    Forall2 (fun r r' => cidr r' = cidr r /\ length (fvals r') = length F' /\
               exists x, has_district (fval (str "province") G (fvals r)) x /\
                 forall f, fval f F' (fvals r') = if bytes_eqb f (str "district") then x else fval f G (fvals r))
            (dIps (contents d)) (dIps (contents d')).
Proof.
  intros L Rc EG ND Cpp. pose proof Rc as Len. unfold rectangular in Len. rewrite EG, Forall_forall in Len.
  assert (In (str "district") G \/ ~ In (str "district") G) as [Id|Id].
  { destruct (offset_of (str "district") G) as [i|] eqn:Ei; [left; apply offset_of_nth in Ei; eapply nth_error_In; eassumption|right; apply offset_of_none; assumption]. }
  - destruct (In_nth_error _ _ Id) as [pd Hpd].
    destruct (C29_district_set grow d pp pd L Rc) as (d4 & E4 & L4 & Rc4 & F4 & V4 & R4).
    { rewrite EG. split; [assumption|]. intros j Lj Hj. pose proof (NoDup_nth _ _ _ _ ND Cpp Hj). lia. }
    { rewrite EG. split; [assumption|]. intros j Lj Hj. pose proof (NoDup_nth _ _ _ _ ND Hpd Hj). lia. }
    exists d4, G. split; [assumption|]. split; [congruence|]. split; [assumption|]. split; [apply incl_refl|]. split; [auto|]. split; [congruence|].
    assert (pd < length G) as Lpd by (apply nth_error_Some; congruence).
    eapply Forall2_in_impl; [|exact R4]. intros r r' I (Ec & x & Hd & Ev). pose proof (Len r I) as Lr.
    split; [assumption|]. split; [rewrite Ev, <- upd_with_col by lia; rewrite upd_length; assumption|].
    exists x. split; [rewrite (fval_at G pp) by assumption; exact Hd|]. rewrite Ev. intros f. apply fval_with_col; [assumption|assumption|lia].
  - destruct (C29_district_added grow d pp L Rc) as (d4 & E4 & L4 & Rc4 & F4 & V4 & R4).
    { rewrite EG. split; [assumption|]. intros j Lj Hj. pose proof (NoDup_nth _ _ _ _ ND Cpp Hj). lia. }
    { rewrite EG. assumption. }
    exists d4, (G ++ [str "district"]). split; [assumption|]. split; [congruence|]. split; [apply NoDup_app_snoc; assumption|].
    split; [apply incl_appl, incl_refl|]. split; [intros f If; apply in_app_or in If as [If|[<-|[]]]; auto|]. split; [congruence|].
    eapply Forall2_in_impl; [|exact R4]. intros r r' I (Ec & x & Hd & Ev). pose proof (Len r I) as Lr.
    split; [assumption|]. split; [rewrite Ev, !app_length, Lr; reflexivity|].
    exists x. split; [rewrite (fval_at G pp) by assumption; exact Hd|]. rewrite Ev. intros f. apply fval_snoc; assumption.
Qed.

(** The line attached to a network with this first address: none without a line database;
    otherwise only networks of China have one, made from what the line database says about
    their first address. *)
Definition line_of_db (line : option queryDb) (country ip : bytes) (ln : option bytes) : Prop :=
  match line with
  | None => ln = None
  | Some q => exists x, ln = Some x /\
      if bytes_eqb country (str "中国") then
        match line_query q ip with Ok i => line_name (iLine i) x | _ => x = [] end
      else x = []
  end.
Section Steps.
Variables (order : nat -> list (bytes * list bytes) -> list (bytes * list bytes)) (grow : nat -> nat) (d0 : HData).
Hypothesis Perm : forall k m, Permutation (order k m) m.
Let F := dFields (contents d0).
Let rows := dIps (contents d0).
Hypothesis ND : NoDup F.
Hypothesis Lg : legal d0.
Hypothesis Rect : rectangular (contents d0).
Variables pi pa pp : nat.
Hypothesis Cpi : nth_error F pi = Some (str "isp").
Hypothesis Cpa : nth_error F pa = Some (str "asn").
Hypothesis Cpp : nth_error F pp = Some (str "province").
Hypothesis Npi : pi <> 0.
Hypothesis Npa : pa <> 0.
Hypothesis NE : rows <> [].
Variables (bs : list block) (s e : N).
Hypothesis Nets : Forall2 (fun r b => net_is (cidr r) b) rows bs.
Hypothesis Ti : tiles s bs e.

Definition renamed (r r1 : IpRaw) : Prop := cidr r1 = cidr r /\ length (fvals r1) = length F /\
  forall f, normal_name f (fval f F (fvals r)) (fval f F (fvals r1)).
Lemma step1 : let d1 := ReplaceShortage NormalizedMap d0 in
  legal d1 /\ dFields (contents d1) = F /\ dVersion (contents d1) = dVersion (contents d0) /\ Forall2 renamed rows (dIps (contents d1)).
Proof.
  intros d1. destruct (C27_shipped_names d0) as (H1 & H2 & H3 & H4). fold d1 in H1, H2, H3, H4. fold F rows in H1, H3, H4.
  split; [apply ReplaceShortage_legal; assumption|]. split; [assumption|]. split; [assumption|].
  apply nth_Forall2; [symmetry; assumption|]. intros k r r1 Hr Hr1. destruct (H4 k r Hr) as (r' & E & A & B & C).
  assert (r' = r1) as -> by congruence. 
  assert (length (fvals r) = length F) as Lr.
  { unfold rectangular in Rect. rewrite Forall_forall in Rect. apply Rect. eapply nth_error_In. exact Hr. }
  split; [assumption|]. split; [congruence|]. intros f.
  destruct (offset_of f F) as [i|] eqn:E1.
  - pose proof (offset_of_nth _ _ _ E1) as Hf. rewrite !(fval_at F i f) by assumption.
    assert (i < length F) as Li by (apply nth_error_Some; congruence).
    destruct (nth_error (fvals r) i) as [v|] eqn:Ev; [|apply nth_error_None in Ev; lia].
    specialize (C i v Ev). fold F in C. rewrite Hf in C. destruct C as (w & Ew & Hn).
    rewrite (nth_error_nth _ _ _ Ev), (nth_error_nth _ _ _ Ew). assumption.
  - apply offset_of_none in E1. rewrite !fval_absent by assumption. apply normal_name_empty.
Qed.

Lemma isp_not_asn : str "asn" <> str "isp". Proof. discriminate. Qed.
(** After trimming, in terms of the original rows. *)
Record trimmed_row (r r2 : IpRaw) : Prop := {
  tr_cidr : cidr r2 = cidr r;
  tr_len : length (fvals r2) = length F;
  tr_names : forall f, f <> str "isp" -> normal_name f (fval f F (fvals r)) (fval f F (fvals r2));
  tr_isp : exists n, normal_name (str "isp") (fval (str "isp") F (fvals r)) n /\
    ((fval (str "isp") F (fvals r2) = n /\
      (main_operator n \/ forall q x, In q rows -> main_operator x -> normal_name (str "isp") (fval (str "isp") F (fvals q)) x ->
                            fval (str "asn") F (fvals q) <> fval (str "asn") F (fvals r))) \/
     (~ main_operator n /\ main_operator (fval (str "isp") F (fvals r2)) /\
      exists q, In q rows /\ fval (str "asn") F (fvals q) = fval (str "asn") F (fvals r) /\
                normal_name (str "isp") (fval (str "isp") F (fvals q)) (fval (str "isp") F (fvals r2)))) }.
Lemma same_asn r r1 : renamed r r1 -> fval (str "asn") F (fvals r1) = fval (str "asn") F (fvals r).
Proof. intros (_ & _ & H). exact (H (str "asn")). Qed.
Lemma step2 : exists d2, TrimAsnIspDup order (ReplaceShortage NormalizedMap d0) = Ok d2 /\ legal d2 /\
  dFields (contents d2) = F /\ dVersion (contents d2) = dVersion (contents d0) /\ Forall2 trimmed_row rows (dIps (contents d2)).
Proof.
  destruct step1 as (L1 & F1 & V1 & R1). set (d1 := ReplaceShortage NormalizedMap d0) in *.
  assert (pi < length F) as Lpi by (apply nth_error_Some; congruence).
  assert (pa < length F) as Lpa by (apply nth_error_Some; congruence).
  destruct (C28_trim order d1 pi pa Perm L1) as (d2 & E & L2 & F2 & V2 & R2).
  { rewrite F1. split; [assumption|]. intros j Hj. eapply NoDup_nth; eassumption. }
  { rewrite F1. split; [assumption|]. intros j Hj. eapply NoDup_nth; eassumption. }
  { assumption. } { assumption. }
  { clear - R1 Lpi Lpa. induction R1 as [|r r1 l l1 (_ & Q & _) R IH]; constructor; [lia|assumption]. }
  exists d2. split; [assumption|]. split; [assumption|]. split; [congruence|]. split; [congruence|].
  apply nth_Forall2; [rewrite (Forall2_length R1), (Forall2_length R2); reflexivity|].
  intros k r r2 Hr Hr2. destruct (Forall2_nth _ _ _ R1 k r Hr) as (r1 & Hr1 & Rn).
  destruct (Forall2_nth _ _ _ R2 k r1 Hr1) as (r2' & Hr2' & Ec & Tr). assert (r2' = r2) as -> by congruence.
  pose proof (same_asn _ _ Rn) as Ea. destruct Rn as (N1 & N2 & N3).
  destruct Tr as [[Nm (q1 & Iq & Mq & Aq & Ev)]|[Keep Ev]].
  - apply In_nth_error in Iq as [j Hj]. destruct (Forall2_nth' _ _ _ R1 j q1 Hj) as (q & Hq & Rq).
    pose proof (same_asn _ _ Rq) as Eq. destruct Rq as (Q1 & Q2 & Q3).
    rewrite <- (fval_at F pi (str "isp")) in Nm, Mq by assumption. rewrite <- !(fval_at F pa (str "asn")) in Aq by assumption.
    rewrite <- (fval_at F pi (str "isp")) in Ev by assumption.
    constructor; rewrite ?Ev.
    + congruence.
    + rewrite <- upd_with_col by lia. rewrite upd_length. assumption.
    + intros f Nf. rewrite (fval_with_col F pi (str "isp")) by (assumption || lia).
      destruct (bytes_eqb_spec f (str "isp")); [contradiction|]. apply N3.
    + exists (fval (str "isp") F (fvals r1)). split; [apply N3|]. right. split; [assumption|].
      rewrite (fval_with_col F pi (str "isp")) by (assumption || lia). rewrite bytes_eqb_refl. split; [assumption|].
      exists q. split; [eapply nth_error_In; eassumption|]. split; [congruence|]. apply Q3.
  - constructor; rewrite ?Ev.
    + congruence. + assumption. + intros f _. apply N3.
    + exists (fval (str "isp") F (fvals r1)). split; [apply N3|]. left. split; [reflexivity|].
      rewrite (fval_at F pi (str "isp") (fvals r1)) by assumption.
      destruct Keep as [K|K]; [left; assumption|right]. intros q x Iq Mx Nx.
      apply In_nth_error in Iq as [j Hj]. destruct (Forall2_nth _ _ _ R1 j q Hj) as (q1 & Hq1 & Rq).
      rewrite <- (same_asn _ _ Rq), <- Ea. destruct Rq as (Q1 & Q2 & Q3).
      assert (x = fval (str "isp") F (fvals q1)) as -> by (eapply C27_normal_name_unique; [exact Nx|apply Q3]).
      rewrite !(fval_at F pa (str "asn")) by assumption. rewrite (fval_at F pi (str "isp")) in Mx by assumption.
      apply K; [eapply nth_error_In; eassumption|assumption].
Qed.

Lemma nets_blocks d l : Forall2 (fun r b => net_is (cidr r) b) (dIps (contents d)) l -> Forall aligned l -> blocks (contents d).
Proof. unfold blocks. induction 1; intros A; [constructor|]. inversion A; subst. constructor; eauto. Qed.

(** Everything up to the line and the district. *)
Lemma merged : exists d3 bs3, apply_ops (DefaultOperates order) d0 = Ok d3 /\ legal d3 /\ dFields (contents d3) = F /\
  rectangular (contents d3) /\ vIpType (dVersion (contents d3)) = vIpType (dVersion (contents d0)) /\
  (Forall (full d0) (hRows d0) -> Forall (full d3) (hRows d3)) /\
  Forall2 (fun r b => net_is (cidr r) b) (dIps (contents d3)) bs3 /\ tiles s bs3 e /\
  (forall k r3 b a, nth_error (dIps (contents d3)) k = Some r3 -> nth_error bs3 k = Some b -> in_block b a ->
    exists j r0 b0 r2, nth_error rows j = Some r0 /\ nth_error bs j = Some b0 /\ in_block b0 a /\ inside b0 b /\
      fvals r2 = fvals r3 /\ trimmed_row r0 r2).
Proof.
  destruct step2 as (d2 & E2 & L2 & F2 & V2 & R2).
  assert (length (dIps (contents d2)) = length rows) as Len2 by (symmetry; apply (Forall2_length R2)).
  assert (Forall2 (fun r b => net_is (cidr r) b) (dIps (contents d2)) bs) as N2.
  { apply nth_Forall2; [rewrite Len2; apply (Forall2_length Nets)|]. intros k r2 b H1 H2.
    destruct (Forall2_nth' _ _ _ R2 k r2 H1) as (r & Hr & T). destruct (Forall2_nth _ _ _ Nets k r Hr) as (b' & Hb & Hn).
    rewrite (tr_cidr _ _ T). congruence. }
  pose proof (proj1 (tiles_covers _ _ _ Ti)) as Al.
  assert (dIps (contents d2) <> []) as NE2 by (intros Q; apply NE; destruct rows; [reflexivity|rewrite Q in Len2; discriminate]).
  assert (hRows d2 <> []) as NR2 by (intros Q; apply NE2; unfold contents; rewrite Q; reflexivity).
  pose proof (nets_blocks _ _ N2 Al) as B2.
  destruct (merge_main d2 NR2 B2) as (d3 & E3 & Hh & Hf & Hv & B3 & _ & Src & Cov).
  destruct (C24_merge_partition d2 bs s e N2 Ti NE2) as (d3' & bs3 & E3' & N3 & T3).
  assert (d3' = d3) as -> by congruence. clear E3'.
  assert (legal d3) as L3.
  { unfold legal in *. apply Forall_forall. intros r Ir. destruct (Src r Ir) as (r0 & I0 & Es). rewrite Hh, Es.
    rewrite Forall_forall in L2. apply L2. assumption. }
  assert (forall r3, In r3 (dIps (contents d3)) -> length (fvals r3) = length F) as Len3.
  { intros r3 I3. unfold contents in I3. cbn [dIps] in I3. apply in_map_iff in I3 as (h3 & <- & I3). cbn [fvals].
    destruct (Src h3 I3) as (h2 & I2 & Es). rewrite Hh, Es.
    assert (In (mkRaw (fst h2) (view (hHeap d2) (snd h2))) (dIps (contents d2))) as I2'.
    { unfold contents. cbn [dIps]. apply in_map_iff. exists h2. auto. }
    apply In_nth_error in I2' as [k Hk]. destruct (Forall2_nth' _ _ _ R2 k _ Hk) as (r & _ & T). apply (tr_len _ _ T). }
  assert (dFields (contents d3) = F) as F3 by (change (hFields d3 = F); rewrite Hf; exact F2).
  assert (rectangular (contents d3)) as Rc3 by (unfold rectangular; rewrite F3; apply Forall_forall; exact Len3).
  assert (vIpType (dVersion (contents d3)) = vIpType (dVersion (contents d0))) as V3.
  { change (vIpType (hVersion d3) = vIpType (dVersion (contents d0))). rewrite Hv. unfold set_count. cbn [vIpType].
    change (vIpType (dVersion (contents d2)) = vIpType (dVersion (contents d0))). rewrite V2. reflexivity. }
  pose proof (proj1 (tiles_covers _ _ _ T3)) as Al3.
  (* the values before AttachDistrict *)
  assert (forall k r3 b a, nth_error (dIps (contents d3)) k = Some r3 -> nth_error bs3 k = Some b -> in_block b a ->
    exists j r0 b0 r2, nth_error rows j = Some r0 /\ nth_error bs j = Some b0 /\ in_block b0 a /\ inside b0 b /\
      fvals r2 = fvals r3 /\ trimmed_row r0 r2) as Back.
  { intros k r3 b a H1 H2 Ba.
    assert (net_is (cidr r3) b) as Hn by (destruct (Forall2_nth _ _ _ N3 k r3 H1) as (b' & Hb & Hn); congruence).
    assert (aligned b) as Ab by (rewrite Forall_forall in Al3; apply Al3; eapply nth_error_In; eassumption).
    destruct (proj1 (Cov a (fvals r3))) as (r2 & b2 & I2 & Ev & Hn2 & Ab2 & Ba2).
    { exists r3, b. split; [eapply nth_error_In; eassumption|]. auto. }
    pose proof I2 as I2'. apply In_nth_error in I2 as [j Hj]. destruct (Forall2_nth' _ _ _ R2 j r2 Hj) as (r0 & Hr0 & T).
    destruct (Forall2_nth _ _ _ N2 j r2 Hj) as (b0 & Hb0 & Hnb). assert (b0 = b2) as -> by (eapply net_is_fun; eassumption).
    exists j, r0, b2, r2. split; [assumption|]. split; [assumption|]. split; [assumption|]. split; [|auto].
    destruct (C25_merge_only_grows d2 d3 B2 E3 r2 b2 I2' Hn2 Ab2) as (r4 & b4 & I4 & _ & Hn4 & Ab4 & Ins).
    assert (b4 = b) as <-; [|exact Ins].
    apply In_nth_error in I4 as [k4 H4]. destruct (Forall2_nth _ _ _ N3 k4 r4 H4) as (b4' & Hb4 & Hn4').
    assert (b4' = b4) as -> by (eapply net_is_fun; eassumption).
    destruct (Nat.eq_dec k4 k) as [->|Nk]; [congruence|]. exfalso.
    apply (tiles_disjoint _ _ _ T3 k4 k b4 b Nk Hb4 H2 a). auto. }
  exists d3, bs3. split; [unfold DefaultOperates; cbn [apply_ops bind]; rewrite E2; cbn [bind]; rewrite E3; reflexivity|].
  do 4 (split; [assumption|]). split.
  { intros Fl. apply shortage_full in Fl. apply (trim_full _ _ _ E2) in Fl. apply Forall_forall. intros r Ir. destruct (Src r Ir) as (r0 & I0 & Es).
    unfold full. rewrite Hh, Es. rewrite Forall_forall in Fl. apply Fl. assumption. }
  do 2 (split; [assumption|]). exact Back.
Qed.

(** All steps. *)
Variable line : option queryDb.
Hypothesis HLine : match line with
  | None => True
  | Some q => (forall ip, valid_ip ip -> answers_at (line_query q) ip) /\ Forall (full d0) (hRows d0) /\
              ~ In (str "line") F /\ In (str "country") F
  end.
Lemma steps : exists d F' bs', apply_ops (converterOps order grow (option_map (fun q => (q, false)) line)) d0 = Ok d /\
  dFields (contents d) = F' /\ NoDup F' /\ incl F F' /\
  (forall f, In f F' -> In f F \/ f = str "district" \/ (line <> None /\ f = str "line")) /\
  vIpType (dVersion (contents d)) = vIpType (dVersion (contents d0)) /\
  Forall2 (fun r b => net_is (cidr r) b) (dIps (contents d)) bs' /\ tiles s bs' e /\
  (forall k r b, nth_error (dIps (contents d)) k = Some r -> nth_error bs' k = Some b ->
     length (fvals r) = length F' /\
     forall a, in_block b a -> exists j r0 b0 ln, nth_error rows j = Some r0 /\ nth_error bs j = Some b0 /\ in_block b0 a /\
       inside b0 b /\ line_of_db line (fval (str "country") F (fvals r0)) (nIP (cidr r)) ln /\ row_improved ln F rows (fvals r0) F' (fvals r)).
Proof.
  destruct merged as (d3 & bs3 & E3 & L3 & F3 & Rc3 & V3 & Fl & N3 & T3 & Back).
  assert (M : exists d4 G, apply_ops (line_ops grow (option_map (fun q => (q, false)) line)) d3 = Ok d4 /\ legal d4 /\ rectangular (contents d4) /\ dFields (contents d4) = G /\ NoDup G /\ nth_error G pp = Some (str "province") /\
    incl F G /\ (forall f, In f G -> In f F \/ (line <> None /\ f = str "line")) /\
    vIpType (dVersion (contents d4)) = vIpType (dVersion (contents d3)) /\
    Forall2 (fun r r' => cidr r' = cidr r /\ exists ln, line_of_db line (fval (str "country") F (fvals r)) (nIP (cidr r)) ln /\
      forall f, fval f G (fvals r') = if bytes_eqb f (str "line") then match ln with Some x => x | None => fval f F (fvals r) end else fval f F (fvals r))
      (dIps (contents d3)) (dIps (contents d4))).
  { destruct line as [q|]; cbn [option_map].
    - destruct HLine as (An & Fl0 & Nl & Ic). destruct (In_nth_error _ _ Ic) as [pc Hpc].
      destruct (C30_attach_line_added grow (line_query q) (line_version q) d3 pc) as (d4 & E4 & L4 & F4 & V4 & R4).
      { intros r Ir. apply An. apply In_nth_error in Ir as [k Hk]. destruct (Forall2_nth _ _ _ N3 k r Hk) as (b & _ & Hn). apply (ni_len _ _ Hn). }
      { assumption. } { assumption. }
      { rewrite F3. split; [assumption|]. intros j Lj Hj. pose proof (NoDup_nth _ _ _ _ ND Hpc Hj). subst. lia. }
      { rewrite F3. assumption. } { right. apply Fl. assumption. }
      rewrite F3 in F4. pose proof Rc3 as Len3. unfold rectangular in Len3. rewrite F3, Forall_forall in Len3.
      exists d4, (F ++ [str "line"]). split; [cbn [apply_ops line_ops]; rewrite E4; reflexivity|]. split; [assumption|].
      split. { unfold rectangular. rewrite F4. apply Forall_forall. intros r4 I4. apply In_nth_error in I4 as [k Hk].
        destruct (Forall2_nth' _ _ _ R4 k r4 Hk) as (r3 & H3 & _ & x & _ & ->). rewrite !app_length, (Len3 r3) by (eapply nth_error_In; eassumption). reflexivity. }
      split; [assumption|]. split; [apply NoDup_app_snoc; assumption|]. split; [rewrite nth_error_app1 by (apply nth_error_Some; congruence); assumption|].
      split; [apply incl_appl, incl_refl|]. split. { intros f If. apply in_app_or in If as [If|[<-|[]]]; [auto|right; split; [discriminate|reflexivity]]. }
      split; [rewrite V4; reflexivity|].
      eapply Forall2_in_impl; [|exact R4]. intros r r' I (Ec & x & Hx & Ev). split; [assumption|]. exists (Some x). split.
      { exists x. split; [reflexivity|]. unfold line_for in Hx. rewrite (fval_at F pc) by assumption. exact Hx. }
      intros f. rewrite Ev. apply fval_snoc; [assumption|apply Len3; assumption].
    - exists d3, F. split; [reflexivity|]. do 5 (split; [assumption|]). split; [apply incl_refl|]. split; [auto|]. split; [reflexivity|].
      clear. induction (dIps (contents d3)); constructor; [|assumption]. split; [reflexivity|]. exists None. split; [reflexivity|].
      intros f. destruct (bytes_eqb _ _); reflexivity. }
  destruct M as (d4 & G & E4 & L4 & Rc4 & EG & NG & Gpp & Inc & Inc' & V4 & R4).
  destruct (district_step grow d4 G pp L4 Rc4 EG NG Gpp) as (d & F' & E5 & F5 & NF' & Inc5 & Inc5' & V5 & R5).
  exists d, F', bs3. split. { unfold converterOps. rewrite apply_ops_app, E3. cbn [bind]. rewrite apply_ops_app, E4. cbn [bind apply_ops]. rewrite E5. reflexivity. }
  split; [assumption|]. split; [assumption|]. split; [intros f If; auto|].
  split. { intros f If. apply Inc5' in If as [If|If]; [apply Inc' in If as [If|If]; auto|auto]. }
  split; [congruence|].
  assert (forall k r, nth_error (dIps (contents d)) k = Some r -> exists r3, nth_error (dIps (contents d3)) k = Some r3 /\ cidr r = cidr r3 /\ length (fvals r) = length F' /\
    exists ln x, line_of_db line (fval (str "country") F (fvals r3)) (nIP (cidr r)) ln /\ has_district (fval (str "province") F (fvals r3)) x /\
      forall f, fval f F' (fvals r) = if bytes_eqb f (str "district") then x else if bytes_eqb f (str "line") then match ln with Some y => y | None => fval f F (fvals r3) end else fval f F (fvals r3)) as Chain.
  { intros k r Hr. destruct (Forall2_nth' _ _ _ R5 k r Hr) as (r4 & H4 & Ec & Lr & x & Hd & Hf).
    destruct (Forall2_nth' _ _ _ R4 k r4 H4) as (r3 & H3 & Ec4 & ln & Hl & Hf4). exists r3. split; [assumption|]. split; [congruence|]. split; [assumption|].
    exists ln, x. split; [rewrite Ec, Ec4; assumption|]. split. { rewrite (Hf4 (str "province")) in Hd. exact Hd. }
    intros f. rewrite Hf. destruct (bytes_eqb f (str "district")); [reflexivity|apply Hf4]. }
  split.
  { apply nth_Forall2; [rewrite <- (Forall2_length R5), <- (Forall2_length R4); apply (Forall2_length N3)|]. intros k r b H1 H2.
    destruct (Chain k r H1) as (r3 & H3 & Ec & _). destruct (Forall2_nth _ _ _ N3 k r3 H3) as (b' & Hb & Hn). rewrite Ec. congruence. }
  split; [assumption|]. intros k r b H1 H2. destruct (Chain k r H1) as (r3 & H3 & Ec & Lr & ln & x & Hl & Hd & Hf). split; [assumption|].
  intros a Ba. destruct (Back k r3 b a H3 H2 Ba) as (j & r0 & b0 & r2 & Q1 & Q2 & Q3 & Q4 & Q5 & [T1 T2 T3' T4]). rewrite <- Q5 in Hl, Hd, Hf.
  exists j, r0, b0, ln. do 4 (split; [assumption|]). split.
  { rewrite <- (T3' (str "country")) by discriminate. assumption. }
  assert (forall f, f <> str "district" -> f <> str "line" -> fval f F' (fvals r) = fval f F (fvals r2)) as Hk.
  { intros f N1 N2. rewrite Hf. destruct (bytes_eqb_spec f (str "district")); [contradiction|]. destruct (bytes_eqb_spec f (str "line")); [contradiction|reflexivity]. }
  constructor.
  - intros f Nf Nd Nl. destruct (bytes_eqb_spec f (str "line")) as [->|Nl'].
    + destruct Nl as [->|Nl]; [|contradiction]. rewrite (Hf (str "line")). change (bytes_eqb (str "line") (str "district")) with false. rewrite bytes_eqb_refl. apply T3'. assumption.
    + rewrite (Hk f Nd Nl'). apply T3'. assumption.
  - intros y ->. rewrite (Hf (str "line")). change (bytes_eqb (str "line") (str "district")) with false. rewrite bytes_eqb_refl. reflexivity.
  - rewrite (Hf (str "district")), bytes_eqb_refl. rewrite (Hk (str "province")) by discriminate. assumption.
  - rewrite !(Hk (str "isp")) by discriminate. exact T4.
Qed.
End Steps.

(* ---------- operations, packing and opening ---------- *)
Lemma inside_size c b : inside c b -> (logsz c <= logsz b)%N.
Proof.
  intros I. destruct (N.le_gt_cases (logsz c) (logsz b)) as [L|L]; [assumption|exfalso].
  pose proof (N.pow_lt_mono_r 2 (logsz b) (logsz c) ltac:(lia) L).
  assert (0 < 2 ^ logsz b)%N by (apply N.neq_0_lt_0, N.pow_nonzero; lia).
  pose proof (I (base c) ltac:(unfold in_block; lia)) as A. pose proof (I (base c + 2 ^ logsz b)%N ltac:(unfold in_block; lia)) as B.
  unfold in_block in A, B. lia.
Qed.
Lemma inside_prefix c b a : inside c b -> prefix_len a b <= prefix_len a c.
Proof. intros I. pose proof (inside_size _ _ I). unfold prefix_len. destruct (v4b a); lia. Qed.

Lemma no_tab_fval F v f : Forall (no_byte x09) v -> no_byte x09 (fval f F v).
Proof.
  intros H. unfold fval. destruct (offset_of f _) as [k|]; [|intros []].
  destruct (nth_error v k) as [x|] eqn:Ek.
  - rewrite (nth_error_nth _ _ _ Ek). rewrite Forall_forall in H. apply H. eapply nth_error_In. eassumption.
  - apply nth_error_None in Ek. rewrite nth_overflow by assumption. intros [].
Qed.
Lemma line_name_tab l x : line_name l x -> no_byte x09 x.
Proof.
  intros (p & _ & [[_ ->]|[[I ->]|[[_ ->]|[_ ->]]]]); [intros []| |apply no_tabb_ok; vm_compute; reflexivity..].
  cbn [In] in I. repeat (destruct I as [<-|I]; [apply no_tabb_ok; vm_compute; reflexivity|]). destruct I.
Qed.
(** Any dataset whose networks tile the addresses of its family can be packed and opened,
    and its values are answered. *)
Lemma pack_rows E d t F' bs' ipList2 : vIpType (dVersion (contents d)) = t -> dFields (contents d) = F' -> NoDup F' -> common_only F' -> F' <> [] ->
  Forall2 (fun r b => net_is (cidr r) b) (dIps (contents d)) bs' -> tiles (fam_first (dump_family t)) bs' (fam_end (dump_family t)) ->
  (forall row, In row (dIps (contents d)) -> length (fvals row) = length F' /\ Forall (no_byte x09) (fvals row)) ->
  (forall row, In row (dIps (contents d)) -> (N.of_nat (length (join x09 (fvals row))) < 65536)%N) ->
  (t = 2%Z -> forall row, In row (dIps (contents d)) -> (val (nMask (cidr row)) <> 0)%N) ->
  json_ok (jMeta E) (jUnMeta E) (eNow E) (contents d) ->
  exists data2, PackBytes (converterFormats E) (str ".ipdb") d = Ok (data2, d) /\
    ((Z.of_nat (length data2) < 2 ^ 32)%Z ->
     exists q2, NewDbFromBytes (serverFormats E) ipList2 (str ".ipdb") data2 = Ok q2 /\
       forall ip, valid_ip ip -> dumped_family t (addr ip) ->
         exists k row b, nth_error (dIps (contents d)) k = Some row /\ nth_error bs' k = Some b /\ in_block b (addr ip) /\
           QueryStr q2 (ip_string ip) = Ok (Some (shown_info F' (fvals row)), prefix_len (addr ip) b, None)).
Proof.
  intros EV' EF' NF' Cm' NE' Nets' Ti' Good HL HZ HJ.
  pose proof (tiles_covers _ _ _ Ti') as [Al' Cv'].
  assert (HR : Forall2 row_ok (dIps (contents d)) bs').
  { apply nth_Forall2; [apply (Forall2_length Nets')|]. intros k row b Hr Hb.
    destruct (Forall2_nth _ _ _ Nets' k row Hr) as (b' & Hb' & Hn). assert (b' = b) as -> by congruence.
    destruct (Good row ltac:(eapply nth_error_In; eassumption)) as [Hlen Htab].
    assert (In row (dIps (contents d))) as Ir by (eapply nth_error_In; eassumption).
    assert (In b bs') as Ib by (eapply nth_error_In; eassumption).
    assert (aligned b) as Ab by (rewrite Forall_forall in Al'; auto).
    constructor.
    - constructor; [assumption|assumption|].
      assert (logsz b <= 128)%N as L128 by (pose proof (ni_logsz _ _ Hn) as L; destruct (ni_len _ _ Hn) as [V|V]; rewrite V in L; cbn in L; lia).
      destruct (Z.eqb_spec t 2) as [E2|N2].
      + assert (logsz b <> 128)%N as N128.
        { intros Q. apply (HZ E2 row Ir). rewrite (ni_mask _ _ Hn), Q.
          pose proof (ni_logsz _ _ Hn) as L. destruct (ni_len _ _ Hn) as [V|V]; rewrite V in L |- *; [rewrite Q in L; cbn in L; lia|]. reflexivity. }
        lia.
      + assert (0 < 2 ^ logsz b)%N as P by (apply N.neq_0_lt_0, N.pow_nonzero; lia).
        assert (in_block b (base b)) as J1 by (unfold in_block; lia).
        assert (in_block b (base b + (2 ^ logsz b - 1))%N) as J2 by (unfold in_block; lia).
        pose proof (proj1 (Cv' _) (ex_intro _ b (conj Ib J1))) as C1.
        pose proof (proj1 (Cv' _) (ex_intro _ b (conj Ib J2))) as C2.
        unfold dump_family in C1, C2. destruct (Z.eqb_spec t 2); [contradiction|]. cbn [fam4 fam_first fam_end] in C1, C2.
        destruct (N.le_gt_cases (logsz b) 32) as [L|L]; [lia|]. exfalso.
        pose proof (N.pow_lt_mono_r 2 32 (logsz b) ltac:(lia) L). lia.
    - intros Q. rewrite Q in Hlen. destruct F'; [contradiction|discriminate].
    - exact Htab.
    - apply HL. assumption. }
  destruct (C47_packed E d bs' ipList2 HR (tiles_disjoint _ _ _ Ti')) as (data2 & P & Q).
  { change (plain_columns (dFields (contents d))). rewrite EF'. intros f If Nc. apply Cm' in If as [g If]. intros Lo.
    unfold CommonFieldsMap in If. cbn [In] in If.
    repeat (destruct If as [If|If]; [injection If as <- <-; first [contradiction|vm_compute in Lo; discriminate Lo]|]). destruct If. }
  { change (dFields (contents d) <> []). rewrite EF'. assumption. } { assumption. }
  exists data2. split; [assumption|]. intros Hs. destruct (Q Hs) as (q2 & O2 & Q2 & _). exists q2. split; [assumption|].
  intros ip V Fm.
  destruct (tiles_nth _ _ _ (addr ip) Ti') as (k & b & Hb & Bi).
  { apply dumped_family_range; [apply addr_bound; assumption|assumption]. }
  destruct (Forall2_nth' _ _ _ Nets' k b Hb) as (row & Hr & Hn).
  destruct (Good row ltac:(eapply nth_error_In; eassumption)) as [Hlen _].
  exists k, row, b. split; [assumption|]. split; [assumption|]. split; [assumption|].
  rewrite (Q2 k row b ip Hr Hb); try assumption.
  - change (hFields d) with (dFields (contents d)). rewrite EF'. rewrite info_shown by assumption. reflexivity.
  - change (hFields d) with (dFields (contents d)). rewrite EF'. lia.
  - change (hVersion d) with (dVersion (contents d)). rewrite EV'. apply dumped_family_holds. assumption.
Qed.
(** What the packed file answers, in terms of the rows of a dump d0 of the family of t. *)
Lemma convert_pack E order grow d0 bs ipList2 f0 fs line :
  let F := f0 :: fs in let rows := dIps (contents d0) in let t := vIpType (hVersion d0) in
  (forall k m, Permutation (order k m) m) -> legal d0 ->
  hFields d0 = F -> NoDup F -> common_only F -> In (str "isp") fs -> In (str "asn") fs -> In (str "province") F ->
  Forall2 (fun r b => net_is (cidr r) b) rows bs -> tiles (fam_first (dump_family t)) bs (fam_end (dump_family t)) ->
  Forall (fun r => length (fvals r) = length F /\ Forall (no_byte x09) (fvals r)) rows ->
  match line with
  | None => True
  | Some q => (forall ip, valid_ip ip -> answers_at (line_query q) ip) /\ Forall (full d0) (hRows d0) /\ ~ In (str "line") F /\ In (str "country") F
  end ->
  exists d, apply_ops (converterOps order grow (option_map (fun q => (q, false)) line)) d0 = Ok d /\
    ((forall row, In row (dIps (contents d)) -> (N.of_nat (length (join x09 (fvals row))) < 65536)%N) ->
     (t = 2%Z -> forall row, In row (dIps (contents d)) -> (val (nMask (cidr row)) <> 0)%N) ->
     json_ok (jMeta E) (jUnMeta E) (eNow E) (contents d) ->
     exists data2, PackBytes (converterFormats E) (str ".ipdb") d = Ok (data2, d) /\
       ((Z.of_nat (length data2) < 2 ^ 32)%Z ->
        exists q2, NewDbFromBytes (serverFormats E) ipList2 (str ".ipdb") data2 = Ok q2 /\
          forall ip, valid_ip ip -> dumped_family t (addr ip) ->
            exists j r0 b0 F' v' b n ln, nth_error rows j = Some r0 /\ nth_error bs j = Some b0 /\ in_block b0 (addr ip) /\
              QueryStr q2 (ip_string ip) = Ok (Some (shown_info F' v'), prefix_len (addr ip) b, None) /\
              prefix_len (addr ip) b <= prefix_len (addr ip) b0 /\ 
              net_is n b /\ aligned b /\ in_block b (addr ip) /\ line_of_db line (fval (str "country") F (fvals r0)) (nIP n) ln /\
              row_improved ln F rows (fvals r0) F' v')).
Proof.
  intros F rows t Perm Lg HF ND Cm Ii Ia Ip Nets Ti Good HLn.
  assert (EFc : dFields (contents d0) = F) by exact HF.
  assert (Tabv : forall row f, In row rows -> no_byte x09 (fval f F (fvals row))).
  { intros row f I. rewrite Forall_forall in Good. apply no_tab_fval, Good, I. }
  apply In_nth_error in Ii as [ki Ki]. apply In_nth_error in Ia as [ka Ka]. apply In_nth_error in Ip as [kp Kp].
  destruct (steps order grow d0 Perm) with (pi := S ki) (pa := S ka) (pp := kp) (bs := bs) (line := line)
    (s := fam_first (dump_family t)) (e := fam_end (dump_family t)) as (d & F' & bs' & Ea & EF' & NF' & Inc & Inc' & EV' & Nets' & Ti' & Rows).
  all: try assumption; try discriminate; try (rewrite EFc; assumption).
  { unfold rectangular. rewrite EFc. eapply Forall_impl; [|exact Good]. intros row [H _]. exact H. }
  { fold rows. intros Q. rewrite Q in Nets. apply Forall2_length in Nets. destruct bs as [|b1 bs1]; [|discriminate].
    cbn [tiles] in Ti. unfold dump_family in Ti. destruct (t =? 2)%Z; vm_compute in Ti; discriminate Ti. }
  rewrite EFc in *. fold rows in Rows.
  exists d. split; [exact Ea|].
  intros HL HZ HJ.
  assert (Cm' : common_only F').
  { intros f If. destruct (Inc' f If) as [I|[->|[_ ->]]]; [apply Cm; assumption| |]; eexists; unfold CommonFieldsMap; in_common. }
  assert (NE' : F' <> []) by (intros Q; assert (In f0 F') as I by (apply Inc; left; reflexivity); rewrite Q in I; destruct I).
  pose proof (tiles_covers _ _ _ Ti') as [Al' _].
  destruct (pack_rows E d t F' bs' ipList2) as (data2 & P & Q); try assumption.
  { intros row Ir. apply In_nth_error in Ir as [k Hr]. destruct (Forall2_nth _ _ _ Nets' k row Hr) as (b & Hb & Hn).
    destruct (Rows k row b Hr Hb) as [Hlen Hsrc]. split; [assumption|].
    destruct (Hsrc (base b)) as (j & r0 & b0 & ln & H1 & _ & _ & _ & Hln & [I1 Il I2 (n & I3 & I4)]); [apply in_block_base|].
      apply nth_error_In in H1. rewrite (fval_map F' (fvals row) NF' Hlen). apply Forall_forall. intros v Iv.
      apply in_map_iff in Iv as (f & <- & If).
      destruct (bytes_eqb_spec f (str "isp")) as [->|Ni].
      { destruct I4 as [[-> _]|[_ [M _]]]; [eapply normal_name_tab; [exact I3|apply Tabv; assumption]|apply operator_tab; assumption]. }
      destruct (bytes_eqb_spec f (str "district")) as [->|Nd]; [eapply district_tab; exact I2|].
      destruct ln as [x|]; [destruct (bytes_eqb_spec f (str "line")) as [->|Nl]|].
      { rewrite (Il x eq_refl). destruct line as [q|]; [|discriminate Hln]. destruct Hln as (x' & Ex & Hx). assert (x' = x) as -> by congruence.
        destruct (bytes_eqb _ _); [|subst x; intros []]. destruct (line_query q _); [|subst x; intros []..]. eapply line_name_tab. exact Hx. }
      { eapply normal_name_tab; [apply I1; auto|apply Tabv; assumption]. }
      eapply normal_name_tab; [apply I1; auto|apply Tabv; assumption]. }
  exists data2. split; [assumption|]. intros Hs. destruct (Q Hs) as (q2 & O2 & Q2). exists q2. split; [assumption|].
  intros ip V Fm. destruct (Q2 ip V Fm) as (k & row & b & Hr & Hb & Bi & A2).
  destruct (Forall2_nth _ _ _ Nets' k row Hr) as (b' & Hb' & Hn). assert (b' = b) as -> by congruence.
  destruct (Rows k row b Hr Hb) as [Hlen Hsrc].
  destruct (Hsrc (addr ip) Bi) as (j & r0 & b0 & ln & H1 & H2 & B0 & Ins & Hln & Im).
  exists j, r0, b0, F', (fvals row), b, (cidr row), ln. split; [assumption|]. split; [assumption|]. split; [assumption|]. split.
  { exact A2. }
  split; [apply inside_prefix; assumption|]. split; [assumption|]. split; [rewrite Forall_forall in Al'; apply Al'; eapply nth_error_In; eassumption|]. auto.
Qed.

(* ------------------------------------------------------------------ *)
(** What the converter's operations make of an answer i of the file opened as q: the
    country, the continent, the AS number and the line stay, the names of province and
    city are the normalised ones, the district is the one of the (normalised) province,
    and the normalised operator is kept when it is one of the four main operators or no
    address with the same AS number has one of them; otherwise it becomes the (normalised)
    main operator of some address with the same AS number. *)
Record improved (q : queryDb) (t : Z) (i i' : IpInfo) : Prop := {
  im_country : iCountry i' = iCountry i;
  im_continent : iContinent i' = iContinent i;
  im_asn : iAsn i' = iAsn i;
  im_line : iLine i' = iLine i;
  im_province : normal_name (str "province") (iProvince i) (iProvince i');
  im_city : normal_name (str "city") (iCity i) (iCity i');
  im_district : has_district (iProvince i') (iDistrict i');
  im_isp : exists n, normal_name (str "isp") (iIsp i) n /\
    ((iIsp i' = n /\
      (main_operator n \/
       forall ip j m x, valid_ip ip -> dumped_family t (addr ip) -> QueryStr q (ip_string ip) = Ok (Some j, m, None) ->
         iAsn j = iAsn i -> normal_name (str "isp") (iIsp j) x -> ~ main_operator x)) \/
     (~ main_operator n /\ main_operator (iIsp i') /\
      exists ip j m, valid_ip ip /\ dumped_family t (addr ip) /\ QueryStr q (ip_string ip) = Ok (Some j, m, None) /\
        iAsn j = iAsn i /\ normal_name (str "isp") (iIsp j) (iIsp i'))) }.

Lemma dump_fval r ret : shows r ret -> NoDup (dump_fields r) ->
  make_info (mFields (rMeta r)) ret = fval_info (dump_fields r) (dump_row r ret) /\
  continent_name (fval (str "continent") (dump_fields r) (dump_row r ret)) = fval (str "continent") (dump_fields r) (dump_row r ret).
Proof.
  intros Sh ND.
  assert (length (dump_row r ret) = length (dump_fields r)) as L by (unfold dump_row; apply map_length).
  assert (continent_name (fval (str "continent") (dump_fields r) (dump_row r ret)) = fval (str "continent") (dump_fields r) (dump_row r ret)) as C.
  { destruct (offset_of (str "continent") (dump_fields r)) as [i|] eqn:E.
    2:{ rewrite fval_absent by (apply offset_of_none; assumption). reflexivity. }
    pose proof (offset_of_nth _ _ _ E) as Ni. pose proof (nth_error_In _ _ Ni) as Ix.
    unfold fval. rewrite E. unfold dump_row. erewrite nth_error_nth; [|apply map_nth_error; exact Ni].
    destruct Sh as [Sl St Sc]. set (mf := mFields (rMeta r)) in *.
    apply ExtKeys_common in Ix as (g & Ig & Im).
    destruct (common_name (str "continent") (str "continent_code") (str "continent") g ltac:(in_common) Ig eq_refl) as [_ ->].
    rewrite (field_value_colc _ _ _ _ Ig). change (mFields (rMeta r)) with mf in Im.
    destruct (offset_of_in _ _ Im) as [k Ek]. pose proof (offset_of_nth _ _ _ Ek) as Nk.
    assert (k < length mf)%nat as Lk by (apply nth_error_Some; congruence).
    destruct (nth_error ret k) as [v|] eqn:Ev; [|apply nth_error_None in Ev; fold mf in Sl; lia].
    rewrite (colc_at _ _ _ k v); [|intros j Hj; eapply flat_map_dup; eassumption|assumption|assumption].
    apply (Sc k v Ek Ev). }
  split; [|assumption]. rewrite <- dump_row_info by assumption. apply info_fval; try assumption. apply dump_common.
Qed.

(** C57: converting an ipdb file with the default operations: every address of the family
    that the dump reads is answered, with the improved values and a network that is not
    smaller. *)
Theorem C57_default : forall E order grow file data d0 ipList1 ipList2 q1 f0 fs,
  (forall k m, Permutation (order k m) m) ->
  path_ext file = str ".ipdb" -> DumpFile (converterFormats E) file (Some data) [] [] = Ok d0 ->
  NewDbFromBytes (serverFormats E) ipList1 (str ".ipdb") data = Ok q1 ->
  hFields d0 = f0 :: fs -> NoDup (f0 :: fs) -> In (str "isp") fs -> In (str "asn") fs -> In (str "province") (f0 :: fs) ->
  exists d, DumpFile (converterFormats E) file (Some data) [] (converterOps order grow None) = Ok d /\
    ((forall row, In row (dIps (contents d)) -> (N.of_nat (length (join x09 (fvals row))) < 65536)%N) ->
     (vIpType (hVersion d0) = 2%Z -> forall row, In row (dIps (contents d)) -> (val (nMask (cidr row)) <> 0)%N) ->
     json_ok (jMeta E) (jUnMeta E) (eNow E) (contents d) ->
     exists data2, PackBytes (converterFormats E) (str ".ipdb") d = Ok (data2, d) /\
       ((Z.of_nat (length data2) < 2 ^ 32)%Z ->
        exists q2, NewDbFromBytes (serverFormats E) ipList2 (str ".ipdb") data2 = Ok q2 /\
          forall ip, valid_ip ip -> dumped_family (vIpType (hVersion d0)) (addr ip) ->
            exists i m i' m', QueryStr q1 (ip_string ip) = Ok (Some i, m, None) /\
              QueryStr q2 (ip_string ip) = Ok (Some i', m', None) /\ m' <= m /\
              improved q1 (vIpType (hVersion d0)) i i')).
Proof.
  intros E order grow file data d0 il1 il2 q1 f0 fs Perm Hp HD HQ HF ND Ii Ia Ip.
  destruct (dumped _ _ _ _ Hp HD) as (dd & D0 & Ed). destruct (fresh_spec (eGrow E) dd) as (EC & Lg & _).
  destruct (open_query _ _ _ _ HQ) as (r & c & _ & O & T).
  destruct (dump_rows _ _ _ _ D0) as (r' & bs & O' & Ef & Ev & Ti & F2).
  rewrite O in O'. injection O' as <-.
  rewrite <- Ed in EC, Lg.
  assert (EF : dump_fields r = f0 :: fs) by (rewrite <- Ef, <- EC; exact HF).
  assert (EV : vIpType (hVersion d0) = IpType (rMeta r)) by (change (vIpType (dVersion (contents d0)) = IpType (rMeta r)); rewrite EC, Ev; reflexivity).
  assert (NDf : NoDup (dump_fields r)) by (rewrite EF; assumption).
  assert (ERc : dIps (contents d0) = dIps dd) by (rewrite EC; reflexivity).
  (* the rows and the answers of the original *)
  assert (Row : forall j row b ip, nth_error (dIps (contents d0)) j = Some row -> nth_error bs j = Some b -> valid_ip ip -> in_block b (addr ip) ->
     dumped_family (IpType (rMeta r)) (addr ip) ->
     QueryStr q1 (ip_string ip) = Ok (Some (fval_info (dump_fields r) (fvals row)), prefix_len (addr ip) b, None) /\
     continent_name (fval (str "continent") (dump_fields r) (fvals row)) = fval (str "continent") (dump_fields r) (fvals row)).
  { intros j row b ip Hr Hb V Bi Fm. rewrite ERc in Hr. destruct (Forall2_nth _ _ _ F2 j row Hr) as (b' & Hb' & [D1 D2 D3 D4 (ret & Sh & Er & G)]).
    assert (b' = b) as -> by congruence. destruct (dump_fval r ret Sh NDf) as [Ei Ec]. rewrite Er. split; [|assumption].
    rewrite C47_str by assumption. rewrite T. rewrite G by assumption. rewrite Ei. reflexivity. }
  assert (Wit : forall row, In row (dIps (contents d0)) -> exists ip m, valid_ip ip /\ dumped_family (IpType (rMeta r)) (addr ip) /\
     QueryStr q1 (ip_string ip) = Ok (Some (fval_info (dump_fields r) (fvals row)), m, None)).
  { intros row I. apply In_nth_error in I as [j Hj]. pose proof Hj as Hj'. rewrite ERc in Hj'.
    destruct (Forall2_nth _ _ _ F2 j row Hj') as (b & Hb & [D1 D2 D3 D4 _]).
    exists (nIP (cidr row)), (prefix_len (addr (nIP (cidr row))) b). split; [apply (ni_len _ _ D1)|].
    assert (dumped_family (IpType (rMeta r)) (addr (nIP (cidr row)))) as Fm by (rewrite <- (ni_base _ _ D1); exact D4).
    split; [assumption|]. apply (Row j row b); try assumption; [apply (ni_len _ _ D1)|]. rewrite <- (ni_base _ _ D1). apply in_block_base. }
  destruct (convert_pack E order grow d0 bs il2 f0 fs None) as (d & Ea & Pk); try assumption; try exact I.
  { rewrite <- EF. apply dump_common. }
  { rewrite ERc. clear - F2. induction F2 as [|x y l m H F2 IH]; constructor; [apply (dr_net _ _ _ _ H)|assumption]. }
  { rewrite EV. assumption. }
  { rewrite ERc, <- EF. apply Forall_forall. intros row I. apply In_nth_error in I as [j Hj].
    destruct (Forall2_nth _ _ _ F2 j row Hj) as (b & Hb & [_ _ _ _ (ret & Sh & Er & _)]).
    rewrite Er. split; [unfold dump_row; apply map_length|apply dump_row_tab; assumption]. }
  exists d. split.
  { unfold DumpFile in HD |- *. destruct (GetDumpFormat (converterFormats E) (path_ext file)) as [create|]; [|discriminate HD].
    destruct (create data (ParseRule [])) as [x| | |]; cbn [bind apply_ops] in HD |- *; try discriminate HD.
    assert (x = d0) as -> by congruence. exact Ea. }
  intros HL HZ HJ. destruct (Pk HL HZ HJ) as (data2 & P & Q). exists data2. split; [assumption|].
  intros Hs. destruct (Q Hs) as (q2 & O2 & Q2). exists q2. split; [assumption|].
  intros ip V Fm. destruct (Q2 ip V Fm) as (j & r0 & b0 & F' & v' & b & n0 & ln & H1 & H2 & B0 & A2 & Le & _ & _ & _ & Hln & [I1 _ I2 (n & I3 & I4)]).
  cbn [line_of_db] in Hln. subst ln.
  rewrite EV in Fm |- *. rewrite <- EF in I1, I3, I4.
  destruct (Row j r0 b0 ip H1 H2 V B0 Fm) as [A1 Ac].
  exists (fval_info (dump_fields r) (fvals r0)), (prefix_len (addr ip) b0), (shown_info F' v'), (prefix_len (addr ip) b).
  split; [assumption|]. split; [assumption|]. split; [assumption|].
  constructor; cbn [fval_info shown_info iCountry iContinent iAsn iLine iProvince iCity iDistrict iIsp].
  - apply (I1 (str "country")); auto; discriminate.
  - rewrite <- Ac. f_equal. apply (I1 (str "continent")); auto; discriminate.
  - apply (I1 (str "asn")); auto; discriminate.
  - apply (I1 (str "line")); auto; discriminate.
  - apply I1; auto; discriminate.
  - apply I1; auto; discriminate.
  - exact I2.
  - exists n. split; [assumption|]. destruct I4 as [[En K]|(Nm & Mo & q & Iq & Aq & Nq)].
    + left. split; [assumption|]. destruct K as [K|K]; [left; assumption|right].
      intros ip' i' m' x V' Fm' Q' Aeq Nx Mx.
      destruct (tiles_nth _ _ _ (addr ip') Ti) as (k' & b' & Hb' & Bi').
      { apply dumped_family_range; [apply addr_bound; assumption|assumption]. }
      assert (exists row', nth_error (dIps (contents d0)) k' = Some row') as (row' & Hr').
      { rewrite ERc. destruct (Forall2_nth' _ _ _ F2 k' b' Hb') as (row' & Hr' & _). eauto. }
      destruct (Row k' row' b' ip' Hr' Hb' V' Bi' Fm') as [A3 _].
      assert (i' = fval_info (dump_fields r) (fvals row')) as -> by congruence.
      apply (K row' x); [eapply nth_error_In; eassumption|assumption|exact Nx|exact Aeq].
    + right. split; [assumption|]. split; [assumption|].
      destruct (Wit q Iq) as (ip' & m' & V' & Fm' & Q'). exists ip', (fval_info (dump_fields r) (fvals q)), m'.
      split; [assumption|]. split; [assumption|]. split; [assumption|]. split; [exact Aq|exact Nq].
Qed.
Print Assumptions C57_default.

(** C57: a dataset whose first network is ::/0 crashes the ipdb packer. *)
Theorem C57_whole_ipv6_crashes : forall E d r rest b,
  dIps (contents d) = r :: rest -> net_is (cidr r) b -> aligned b -> logsz b = 128%N -> plain_columns (hFields d) ->
  PackBytes (converterFormats E) (str ".ipdb") d = Panic.
Proof.
  intros E d r rest b Hr Hn Ha H128 HC. unfold PackBytes.
  change (GetPackFormat (converterFormats E) (str ".ipdb")) with (Some (packH (jMeta E) (eNow E))).
  cbv beta iota. rewrite packH_plain by assumption. unfold Ipdb.pack. rewrite Hr. cbn [insert_all]. unfold insert.
  pose proof (Nodes_zero (wNode (pack_writer (eNow E) (contents d))) (cidr r) b Hn Ha H128) as P.
  destruct (mask_size (nMask (cidr r))) as [mask bits]. cbn [fst] in P. rewrite P. reflexivity.
Qed.
Print Assumptions C57_whole_ipv6_crashes.

(* ------------------------------------------------------------------ *)
(** A case: the name of a province is normalised, two networks are merged, an operator is
    found by AS number and districts are added. *)
Definition imp_ipd : IpData := mkData [str "country"; str "province"; str "isp"; str "asn"] (mkVersion 1 0 0 (str "v1") [] [])
  [ mkRaw (mkNet [x00; x00; x00; x00] [xc0; x00; x00; x00]) [str "中国"; str "浙江省"; str "电信"; str "4134"];
    mkRaw (mkNet [x40; x00; x00; x00] [xc0; x00; x00; x00]) [str "中国"; str "浙江"; str "电信"; str "4134"];
    mkRaw (mkNet [x80; x00; x00; x00] [x80; x00; x00; x00]) [str "中国"; str "广东"; str "foo"; str "4134"] ].
Definition imp_data : HData := fresh (fun _ => 1) (mkData [str "country"; str "province"; str "isp"; str "asn"] (mkVersion 1 98 0 (str "v1") [str "CN"] []) (dIps imp_ipd)).
Definition imp_done : IpData := mkData [str "country"; str "province"; str "isp"; str "asn"; str "district"] (mkVersion 1 2 0 (str "v1") [str "CN"] [])
  [ mkRaw (mkNet (repeat x00 10 ++ [xff; xff; x00; x00; x00; x00]) (repeat xff 12 ++ [x80; x00; x00; x00])) [str "中国"; str "浙江"; str "电信"; str "4134"; str "华东"];
    mkRaw (mkNet (repeat x00 10 ++ [xff; xff; x80; x00; x00; x00]) (repeat xff 12 ++ [x80; x00; x00; x00])) [str "中国"; str "广东"; str "电信"; str "4134"; str "华南"] ].
Definition imp_blocks : list block := [mkBlock v4base 30; mkBlock (v4base + 2 ^ 30)%N 30; mkBlock (v4base + 2 ^ 31)%N 31].
Lemma imp_ok : Forall2 row_ok (dIps imp_ipd) imp_blocks /\ disjoint imp_blocks /\ plain_columns (dFields imp_ipd) /\ dFields imp_ipd <> [] /\
  json_ok (jMeta case_env) (jUnMeta case_env) (eNow case_env) imp_ipd.
Proof.
  split; [constructor; [row_ok_solve|]; constructor; [row_ok_solve|]; constructor; [row_ok_solve|]; constructor|].
  split; [apply disjointb_ok; vm_compute; reflexivity|].
  split; [intros f [<-|[<-|[<-|[<-|[]]]]] N H; vm_compute in H; discriminate H|].
  split; [discriminate|].
  apply C54_json_ok; [|unfold int64; cbn; lia].
  constructor; cbn [imp_ipd dFields dVersion vVersion vExtra]; [repeat (constructor; [ascii|]); constructor|ascii|constructor].
Qed.
Example C57_default_case : path_ext (str "a.ipdb") = str ".ipdb" /\
  DumpFile (converterFormats case_env) (str "a.ipdb") (Some (packed_file imp_ipd)) [] [] = Ok imp_data /\
  (exists q1, NewDbFromBytes (serverFormats case_env) [str "1.2.3.4"] (str ".ipdb") (packed_file imp_ipd) = Ok q1) /\
  hFields imp_data = str "country" :: [str "province"; str "isp"; str "asn"] /\ NoDup (str "country" :: [str "province"; str "isp"; str "asn"]) /\
  (exists d, DumpFile (converterFormats case_env) (str "a.ipdb") (Some (packed_file imp_ipd)) [] (converterOps (fun _ m => m) (fun _ => 1) None) = Ok d /\
     contents d = imp_done) /\
  (forall row, In row (dIps imp_done) -> (N.of_nat (length (join x09 (fvals row))) < 65536)%N) /\
  (vIpType (hVersion imp_data) <> 2%Z) /\
  json_ok (jMeta case_env) (jUnMeta case_env) (eNow case_env) imp_done.
Proof.
  destruct imp_ok as (H1 & H2 & H3 & H4 & H5).
  assert (Z.of_nat (length (packed_file imp_ipd)) < 2 ^ 32)%Z as HS by (vm_compute; reflexivity).
  destruct (case_opens imp_ipd imp_blocks [str "1.2.3.4"] H1 H2 H3 H4 H5 HS) as (q & O & Vq & Du).
  split; [reflexivity|]. split; [rewrite Du by reflexivity; vm_compute; reflexivity|]. split; [eauto|].
  split; [reflexivity|]. split. { repeat constructor; cbn; intuition discriminate. }
  split.
  { rewrite Du by reflexivity.
    assert ((match (let* d := fresh_of (spare_of case_env (ParseRule [])) (fast_dump (jUnMeta case_env) (eFuel case_env) (packed_file imp_ipd) (ParseRule [])) in
                    apply_ops (converterOps (fun _ m => m) (fun _ => 1) None) d) with
             | Ok d => Some (contents d) | _ => None end) = Some imp_done) as R by (vm_compute; reflexivity).
    destruct (bind _ _) as [d| | |]; try discriminate R. exists d. split; [reflexivity|congruence]. }
  split. { intros row I. cbn [imp_done dIps In] in I. destruct I as [<-|[<-|[]]]; vm_compute; reflexivity. }
  split. { vm_compute. discriminate. }
  apply C54_json_ok; [|unfold int64; cbn; lia].
  constructor; cbn [imp_done dFields dVersion vVersion vExtra]; [repeat (constructor; [ascii|]); constructor|ascii|constructor].
Qed.
(** An IPv6 file with the same values everywhere cannot be converted with the default operations. *)
Definition uni_ipd : IpData := mkData [str "country"; str "province"; str "isp"; str "asn"] (mkVersion 2 0 0 (str "v1") [] [])
  [ mkRaw (mkNet (repeat x00 16) (x80 :: repeat x00 15)) [str "中国"; str "浙江"; str "电信"; str "4134"];
    mkRaw (mkNet (x80 :: repeat x00 15) (x80 :: repeat x00 15)) [str "中国"; str "浙江"; str "电信"; str "4134"] ].
Example C57_crash_case :
  (let* d := DumpFile (converterFormats case_env) (str "a.ipdb") (Some (packed_file uni_ipd)) [] (converterOps (fun _ m => m) (fun _ => 1) None) in
   Ok (map cidr (dIps (contents d)))) = Ok [mkNet (repeat x00 16) (repeat x00 16)] /\
  (let* d := DumpFile (converterFormats case_env) (str "a.ipdb") (Some (packed_file uni_ipd)) [] (converterOps (fun _ m => m) (fun _ => 1) None) in
   PackBytes (converterFormats case_env) (str ".ipdb") d) = Panic.
Proof. split; vm_compute; reflexivity. Qed.

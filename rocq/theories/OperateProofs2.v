From Coq Require Import Permutation.
From Verif Require Import IpNet Inf Spec Tables Operate SpecOperate OperateProofs.
Open Scope nat_scope.

Lemma upd_with_col v i x : i < length v -> upd v i x = with_col v i x.
Proof.
  unfold with_col. revert i; induction v as [|a v IH]; intros [|i] H; cbn in *; try lia; [reflexivity|].
  f_equal. apply IH. lia.
Qed.

(* ---- ReplaceShortage ---- *)
Definition norm_cell (tab : nat -> option (list (bytes * bytes))) (i : nat) (v : bytes) : bytes :=
  match tab i with Some m => match assoc v m with Some w => w | None => v end | None => v end.

Lemma upd_same' {A} (l : list A) i x d : nth i l d = x -> i < length l -> upd l i x = l.
Proof. intros H L. apply upd_same. rewrite (nth_error_nth' l d L). congruence. Qed.

Lemma replace_cells_nth tab n : forall h s i a j,
  nth_error (arr (replace_cells tab h s i n) a) j =
  (if (a =? sArr s) && (i <=? j) && (j <? i + n)
   then option_map (norm_cell tab j) (nth_error (arr h a) j) else nth_error (arr h a) j).
Proof.
  induction n as [|n IH]; intros h s i a j; cbn [replace_cells].
  - replace ((a =? sArr s) && (i <=? j) && (j <? i + 0)) with false by lia. reflexivity.
  - rewrite IH.
    set (h1 := match tab i with Some m => _ | None => h end).
    assert (forall b k, nth_error (arr h1 b) k =
              if (b =? sArr s) && (i =? k) then option_map (norm_cell tab k) (nth_error (arr h b) k)
              else nth_error (arr h b) k) as E1.
    { intros b k. unfold h1, norm_cell.
      destruct (Nat.eqb_spec b (sArr s)) as [->|NE]; destruct (Nat.eqb_spec i k) as [->|NK]; cbn [andb].
      - destruct (tab k) as [m|]; [|destruct (nth_error _ _); reflexivity].
        destruct (nth_error (arr h (sArr s)) k) as [x|] eqn:Ex.
        + rewrite (@nth_error_nth bytes _ _ _ [] Ex). cbn [option_map].
          destruct (assoc x m) as [w|]; [|assumption].
          rewrite arr_hset, Nat.eqb_refl, nth_error_upd, Nat.eqb_refl.
          assert (k < length (arr h (sArr s))) by (apply nth_error_Some; congruence).
          replace (k <? _) with true by lia. reflexivity.
        + cbn [option_map]. destruct (assoc _ m) as [w|]; [|assumption].
          rewrite arr_hset, Nat.eqb_refl, nth_error_upd, Nat.eqb_refl.
          apply nth_error_None in Ex as Ex'. replace (k <? _) with false by lia. assumption.
      - destruct (tab i) as [m|]; [|reflexivity]. destruct (assoc _ m) as [w|]; [|reflexivity].
        rewrite arr_hset, Nat.eqb_refl, nth_error_upd. replace (i =? k) with false by lia. reflexivity.
      - destruct (tab k) as [m|]; [|reflexivity]. destruct (assoc _ m) as [w|]; [|reflexivity].
        rewrite arr_hset. replace (b =? sArr s) with false by lia. reflexivity.
      - destruct (tab i) as [m|]; [|reflexivity]. destruct (assoc _ m) as [w|]; [|reflexivity].
        rewrite arr_hset. replace (b =? sArr s) with false by lia. reflexivity. }
    rewrite E1. 
    destruct (Nat.eqb_spec a (sArr s)); cbn [andb]; [|reflexivity].
    destruct (Nat.eqb_spec i j) as [->|NJ].
    + replace (S j <=? j) with false by lia. replace (j <=? j) with true by lia.
      replace (j <? j + S n) with true by lia. reflexivity.
    + destruct (Nat.leb_spec i j); cbn [andb].
      * replace (S i <=? j) with true by lia. cbn [andb].
        replace (j <? S i + n) with (j <? i + S n) by lia. reflexivity.
      * replace (S i <=? j) with false by lia. reflexivity.
Qed.

Lemma replace_rows_nth tab : (forall i v, norm_cell tab i (norm_cell tab i v) = norm_cell tab i v) ->
  forall rows h a j,
  nth_error (arr (fold_left (fun h (r : hrow) => replace_cells tab h (snd r) 0 (sLen (snd r))) rows h) a) j =
  (if existsb (fun r : hrow => (sArr (snd r) =? a) && (j <? sLen (snd r))) rows
   then option_map (norm_cell tab j) (nth_error (arr h a) j) else nth_error (arr h a) j).
Proof.
  intros Idem. induction rows as [|[n s] rows IH]; intros h a j; [reflexivity|].
  cbn [fold_left snd existsb]. rewrite IH, replace_cells_nth. cbn [Nat.leb]. rewrite Nat.add_0_l, andb_true_r.
  rewrite (Nat.eqb_sym a). destruct ((sArr s =? a) && (j <? sLen s)); cbn [orb].
  - destruct (existsb _ rows); [|reflexivity]. destruct (nth_error (arr h a) j); [|reflexivity].
    cbn. rewrite Idem. reflexivity.
  - reflexivity.
Qed.

Lemma replace_rows_view tab rows h : (forall i v, norm_cell tab i (norm_cell tab i v) = norm_cell tab i v) ->
  forall r : hrow, In r rows -> forall j,
  nth_error (view (fold_left (fun h (r : hrow) => replace_cells tab h (snd r) 0 (sLen (snd r))) rows h) (snd r)) j =
  option_map (norm_cell tab j) (nth_error (view h (snd r)) j).
Proof.
  intros Idem r Hr j. unfold view. rewrite !nth_error_firstn, (replace_rows_nth tab Idem).
  destruct (Nat.ltb_spec j (sLen (snd r))); [|reflexivity].
  assert (existsb (fun r0 : hrow => (sArr (snd r0) =? sArr (snd r)) && (j <? sLen (snd r0))) rows = true) as ->.
  { apply existsb_exists. exists r. split; [assumption|]. rewrite Nat.eqb_refl. apply Nat.ltb_lt. assumption. }
  reflexivity.
Qed.

(* ---- association lists ---- *)
Lemma assoc_In {V} k (m : list (bytes * V)) v : assoc k m = Some v -> In (k, v) m.
Proof.
  induction m as [|[k' v'] m IH]; cbn; [discriminate|].
  destruct (bytes_eqb_spec k' k) as [->|]; [intros H; injection H as ->; left; reflexivity|]. intros H. right. auto.
Qed.
Lemma assoc_None {V} k (m : list (bytes * V)) : assoc k m = None -> forall v, ~ In (k, v) m.
Proof.
  induction m as [|[k' v'] m IH]; cbn; [tauto|].
  destruct (bytes_eqb_spec k' k) as [->|N]; [discriminate|]. intros H v [E|Hin]; [congruence|]. eapply IH; eassumption.
Qed.

(* ---- parsing of the tables ---- *)
Lemma cut_app sep s a b : cut sep s = Some (a, b) -> s = a ++ sep :: b /\ no_byte sep a.
Proof.
  revert a b; induction s as [|c s IH]; cbn; intros a b H; [discriminate|].
  destruct (byte_eqb_spec c sep) as [->|N].
  - injection H as <- <-. split; [reflexivity|intros []].
  - destruct (cut sep s) as [[x y]|]; [|discriminate]. injection H as <- <-.
    destruct (IH x y eq_refl) as [-> F]. split; [reflexivity|]. intros [E|E]; [congruence|contradiction].
Qed.
Lemma cut_no sep a b : no_byte sep a -> cut sep (a ++ sep :: b) = Some (a, b).
Proof.
  induction a as [|c a IH]; cbn; intros H; [rewrite byte_eqb_refl; reflexivity|].
  destruct (byte_eqb_spec c sep) as [->|N]; [exfalso; apply H; left; reflexivity|].
  rewrite IH; [reflexivity|]. intros E. apply H. right. assumption.
Qed.

(** Lines without carriage return and with at most one tab. *)
Definition tidy_line (l : bytes) : bool :=
  forallb (fun c => negb (byte_eqb c x0d)) l &&
  (length (filter (fun c => byte_eqb c x09) l) <=? 1).
Definition tidy (text : bytes) : bool := forallb tidy_line (split x0a text).

Lemma trim_cr_tidy l : tidy_line l = true -> trim_cr l = l.
Proof.
  unfold tidy_line. rewrite andb_true_iff. intros [H _]. unfold trim_cr.
  destruct (rev l) as [|c r] eqn:E; [reflexivity|].
  assert (In c l) as Hc by (rewrite <- (rev_involutive l), E, <- in_rev; left; reflexivity).
  rewrite forallb_forall in H. specialize (H c Hc). destruct c; try reflexivity. discriminate.
Qed.

Lemma filter_none {A} (f : A -> bool) l : length (filter f l) = 0 -> forall x, In x l -> f x = false.
Proof.
  induction l as [|a l IH]; cbn; intros H x Hx; [destruct Hx|].
  destruct (f a) eqn:E; [discriminate|]. destruct Hx as [<-|Hx]; auto.
Qed.

Lemma parse_fold_In lines m k v :
  Forall (fun l => tidy_line l = true) lines ->
  In (k, v) (fold_left (fun m l => match cut x09 (trim_cr l) with Some (k, v) => (k, v) :: m | None => m end) lines m)
  <-> In (k ++ x09 :: v) lines /\ no_byte x09 k \/ In (k, v) m.
Proof.
  revert m; induction lines as [|l lines IH]; intros m HF; cbn [fold_left]; [cbn; tauto|].
  inversion HF as [|? ? Ht HF']; subst. rewrite IH by assumption. rewrite (trim_cr_tidy l Ht).
  destruct (cut x09 l) as [[a b]|] eqn:E.
  - apply cut_app in E as [-> Na]. split.
    + intros [[H1 H2]|[E|H]]; [left; split; [right; assumption|assumption]| |right; assumption].
      injection E as <- <-. left. split; [left; reflexivity|assumption].
    + intros [[[E|H1] H2]|H]; [| |right; right; assumption].
      * right. left. pose proof (cut_no x09 a b Na) as C1. rewrite E, (cut_no x09 k v H2) in C1. congruence.
      * left. auto.
  - split; [intros [[H1 H2]|H]; [left; split; [right; assumption|assumption]|right; assumption]|].
    intros [[[E'|H1] H2]|H]; [|left; auto|right; assumption].
    subst l. rewrite (cut_no x09 k v H2) in E. discriminate.
Qed.

Lemma tidy_key text k v : tidy text = true -> has_line text k v -> no_byte x09 k.
Proof.
  unfold tidy, has_line. rewrite forallb_forall. intros H Hin. specialize (H _ Hin).
  unfold tidy_line in H. apply andb_true_iff in H as [_ H].
  rewrite filter_app in H. cbn [filter] in H. rewrite byte_eqb_refl in H. rewrite app_length in H. cbn [length] in H.
  intros Hk. assert (length (filter (fun c => byte_eqb c x09) k) = 0) as L by lia.
  pose proof (filter_none _ _ L _ Hk) as F. cbv beta in F. rewrite byte_eqb_refl in F. discriminate.
Qed.

Lemma parseData_In text k v : tidy text = true -> (In (k, v) (parseData text) <-> has_line text k v).
Proof.
  intros H. unfold parseData. rewrite parse_fold_In by (apply Forall_forall; apply forallb_forall; assumption).
  split; [intros [[A _]|[]]; exact A|]. intros A. left. split; [assumption|]. eapply tidy_key; eassumption.
Qed.

Lemma tables_tidy : tidy CityList && tidy ProvinceList && tidy ISPList = true.
Proof. vm_compute. reflexivity. Qed.

Definition table_idem (m : list (bytes * bytes)) : bool :=
  forallb (fun e => match assoc (snd e) m with Some w => bytes_eqb w (snd e) | None => true end) m.
Lemma table_idem_spec m : table_idem m = true -> forall v w, assoc v m = Some w ->
  match assoc w m with Some u => u | None => w end = w.
Proof.
  unfold table_idem. rewrite forallb_forall. intros H v w E. apply assoc_In in E. specialize (H _ E). cbn in H.
  destruct (assoc w m) as [u|]; [|reflexivity]. destruct (bytes_eqb_spec u w); congruence.
Qed.
Lemma tables_idem : table_idem (parseData CityList) && table_idem (parseData ProvinceList) && table_idem (parseData ISPList) = true.
Proof. vm_compute. reflexivity. Qed.

(** Every line of a table has its own key. *)
Fixpoint distinct (l : list bytes) : bool :=
  match l with [] => true | x :: r => negb (in_array x r) && distinct r end.
Lemma distinct_NoDup l : distinct l = true -> NoDup l.
Proof.
  induction l as [|x l IH]; cbn; [constructor|]. rewrite andb_true_iff. intros [H1 H2]. constructor; [|auto].
  intros H. apply in_array_iff in H. rewrite H in H1. discriminate.
Qed.
Lemma tables_distinct : distinct (map fst (parseData CityList)) && distinct (map fst (parseData ProvinceList))
  && distinct (map fst (parseData ISPList)) = true.
Proof. vm_compute. reflexivity. Qed.
Lemma NoDup_key {V} (m : list (bytes * V)) k v w : NoDup (map fst m) -> In (k, v) m -> In (k, w) m -> v = w.
Proof.
  induction m as [|[a b] m IH]; cbn; intros N H1 H2; [destruct H1|]. inversion N; subst.
  destruct H1 as [E1|H1]; destruct H2 as [E2|H2]; try congruence.
  - injection E1 as -> ->. exfalso. apply H3. apply in_map_iff. exists (k, w). auto.
  - injection E2 as -> ->. exfalso. apply H3. apply in_map_iff. exists (k, v). auto.
  - auto.
Qed.

(* ---- loops that write one column ---- *)
Section OneColumn.
Variables (grow : nat -> nat) (body : nat -> IPNet -> list bytes -> res act) (h0 : heap) (rows0 : list hrow)
          (p : nat) (L : hrow -> option bytes).
(** the value last written by a row of this array *)
Definition last_write (rows : list hrow) (a : nat) : option bytes :=
  fold_left (fun acc r => if sArr (snd r) =? a then match L r with Some l => Some l | None => acc end else acc) rows None.
Definition written (rows : list hrow) (s : slc) : list bytes :=
  match last_write rows (sArr s) with Some l => upd (view h0 s) p l | None => view h0 s end.

Hypothesis Legal : Forall (fun r => legal_slc h0 (snd r)) rows0.
Hypothesis Wide : forall r, In r rows0 -> p < sLen (snd r).
Hypothesis Body : forall k n s v, In (n, s) rows0 ->
  (v = view h0 s \/ exists l, v = upd (view h0 s) p l) ->
  body k n v = Ok (match L (n, s) with Some l => Put p l | None => Keep end).

Lemma last_write_app rows r a :
  last_write (rows ++ [r]) a =
  if sArr (snd r) =? a then match L r with Some l => Some l | None => last_write rows a end else last_write rows a.
Proof. unfold last_write. rewrite fold_left_app. reflexivity. Qed.

Lemma upd_upd {A} (v : list A) i x y : upd (upd v i x) i y = upd v i y.
Proof. revert i; induction v as [|a v IH]; intros [|i]; cbn; try reflexivity. f_equal. apply IH. Qed.

Lemma each_row_column :
  exists h', each_row grow body 0 h0 rows0 = Ok (h', rows0) /\
    Forall (fun r => legal_slc h' (snd r)) rows0 /\
    forall s, In s (map snd rows0) -> view h' s = written rows0 s.
Proof.
  destruct (each_row_put grow body h0 rows0 Legal (fun pre s v => v = written pre s)) as (h' & E & _ & Lg & H).
  - intros s _. reflexivity.
  - intros pre n s todo v E Q Lv.
    assert (In (n, s) rows0) as Hin by (rewrite E; apply in_or_app; right; left; reflexivity).
    exists (match L (n, s) with Some l => Put p l | None => Keep end).
    split; [apply (Body _ _ s); [assumption|]|].
    { rewrite Q. unfold written. destruct (last_write pre (sArr s)) as [l|]; [right; exists l|left]; reflexivity. }
    split; [destruct (L (n, s)); exact I|].
    split; [destruct (L (n, s)); [apply (Wide _ Hin)|exact I]|].
    intros s' v' Hs' Q' Lv' _. rewrite Q'. unfold written. rewrite last_write_app. cbn [snd].
    rewrite (Nat.eqb_sym (sArr s')). destruct (Nat.eqb_spec (sArr s) (sArr s')) as [Es|Ns]; [|reflexivity].
    destruct (L (n, s)) as [l|]; [|reflexivity]. cbn [applied].
    destruct (last_write pre (sArr s')) as [l'|]; [apply upd_upd|reflexivity].
  - exists h'. auto.
Qed.
End OneColumn.

Lemma last_write_spec L rows a :
  match last_write L rows a with
  | Some l => exists i r, nth_error rows i = Some r /\ sArr (snd r) = a /\ L r = Some l /\
      forall j r', i < j -> nth_error rows j = Some r' -> sArr (snd r') = a -> L r' = None
  | None => forall r, In r rows -> sArr (snd r) = a -> L r = None
  end.
Proof.
  induction rows as [|r rows IH] using rev_ind; [intros r []|].
  rewrite last_write_app. destruct (Nat.eqb_spec (sArr (snd r)) a) as [E|N].
  - destruct (L r) as [l|] eqn:El.
    + exists (length rows), r. rewrite nth_error_app2, Nat.sub_diag by lia. split; [reflexivity|].
      split; [assumption|]. split; [assumption|]. intros j r' Hj H _.
      assert (j < length (rows ++ [r])) by (apply nth_error_Some; congruence). rewrite app_length in *. cbn in *. lia.
    + destruct (last_write L rows a) as [l|].
      * destruct IH as (i & r0 & H1 & H2 & H3 & H4). exists i, r0.
        assert (i < length rows) by (apply nth_error_Some; congruence).
        rewrite nth_error_app1 by assumption. split; [assumption|]. split; [assumption|]. split; [assumption|].
        intros j r' Hj H5 Ha. destruct (Nat.lt_ge_cases j (length rows)) as [Lj|Lj].
        -- rewrite nth_error_app1 in H5 by assumption. eapply H4; eassumption.
        -- rewrite nth_error_app2 in H5 by assumption. destruct (j - length rows) as [|k]; cbn in H5; [congruence|destruct k; discriminate].
      * intros r' Hr Ha. apply in_app_or in Hr as [Hr|[<-|[]]]; [eauto|assumption].
  - destruct (last_write L rows a) as [l|].
    + destruct IH as (i & r0 & H1 & H2 & H3 & H4). exists i, r0.
      assert (i < length rows) by (apply nth_error_Some; congruence).
      rewrite nth_error_app1 by assumption. split; [assumption|]. split; [assumption|]. split; [assumption|].
      intros j r' Hj H' Ha. destruct (Nat.lt_ge_cases j (length rows)) as [Lj|Lj].
      -- rewrite nth_error_app1 in H' by assumption. eapply H4; eassumption.
      -- rewrite nth_error_app2 in H' by assumption. destruct (j - length rows) as [|k]; cbn in H'; [congruence|destruct k; discriminate].
    + intros r' Hr Ha. apply in_app_or in Hr as [Hr|[<-|[]]]; [eauto|congruence].
Qed.

(* ---- TrimAsnIspDup ---- *)
Lemma last_index_only f fields : forall i k acc, nth_error fields i = Some f ->
  (forall j, nth_error fields j = Some f -> j = i) -> last_index f fields k acc = k + i.
Proof.
  assert (forall l k acc, ~ In f l -> last_index f l k acc = acc) as None_.
  { induction l as [|x l IH]; intros k acc H; [reflexivity|]. cbn.
    destruct (bytes_eqb_spec x f) as [->|]; [exfalso; apply H; left; reflexivity|]. apply IH. intros E. apply H. right. assumption. }
  induction fields as [|x fields IH]; intros [|i] k acc H1 H2; cbn in *; try discriminate.
  - injection H1 as ->. rewrite bytes_eqb_refl. rewrite None_; [lia|].
    intros H. apply In_nth_error in H as [j H]. specialize (H2 (S j) H). discriminate.
  - rewrite (IH i); [lia|assumption|]. intros j H. specialize (H2 (S j) H). lia.
Qed.
Lemma last_index_absent f l : ~ In f l -> forall k acc, last_index f l k acc = acc.
Proof.
  induction l as [|x l IH]; intros H k acc; [reflexivity|]. cbn.
  destruct (bytes_eqb_spec x f) as [->|]; [exfalso; apply H; left; reflexivity|]. apply IH. intros E. apply H. right. assumption.
Qed.

Lemma add_asn_In isp asn m k a :
  (exists v, In (k, v) (add_asn isp asn m) /\ In a v) <->
  (k = isp /\ a = asn) \/ exists v, In (k, v) m /\ In a v.
Proof.
  induction m as [|[k' v'] m IH]; cbn.
  - split; [intros (v & [E|[]] & H); injection E as <- <-; destruct H as [<-|[]]; intuition|].
    intros [[-> ->]|(v & [] & _)]. exists [asn]. cbn. intuition.
  - destruct (bytes_eqb_spec k' isp) as [->|N].
    + split.
      * intros (v & [E|H] & Ha); [injection E as <- <-; destruct Ha as [<-|Ha]; [auto|right; exists v'; intuition]|right; exists v; intuition].
      * intros [[-> ->]|(v & [E|H] & Ha)]; [exists (asn :: v'); cbn; intuition| |exists v; intuition].
        injection E as <- <-. exists (asn :: v'). cbn. intuition.
    + split.
      * intros (v & [E|H] & Ha); [injection E as <- <-; right; exists v'; intuition|].
        destruct (proj1 IH) as [H1|(v2 & H1 & H2)]; [eauto|auto|right; exists v2; intuition].
      * intros [H|(v & [E|H] & Ha)].
        -- destruct (proj2 IH (or_introl H)) as (v & H1 & H2). exists v. split; [right; assumption|assumption].
        -- exists v. split; [left; assumption|assumption].
        -- destruct (proj2 IH (or_intror (ex_intro _ v (conj H Ha)))) as (v2 & H1 & H2). exists v2. split; [right; assumption|assumption].
Qed.

Lemma in_main isp : in_array isp mainIsp = true <-> main_operator isp.
Proof. rewrite in_array_iff. unfold main_operator, mainIsp. tauto. Qed.

Lemma idx_Ok {A} (l : list A) i d : i < length l -> idx l i = Ok (nth i l d).
Proof. intros H. unfold idx. rewrite (nth_error_nth' l d H). reflexivity. Qed.
Lemma idx_b (l : list bytes) i : i < length l -> idx l i = Ok (nth i l []).
Proof. apply idx_Ok. Qed.

Lemma collect_spec h pi pa : pa <> 0 -> forall rows m,
  Forall (fun r : hrow => pi < length (view h (snd r)) /\ pa < length (view h (snd r))) rows ->
  exists m', collect_asn h pi pa rows m = Ok m' /\
    forall k a, (exists v, In (k, v) m' /\ In a v) <->
      (exists v, In (k, v) m /\ In a v) \/
      (exists r, In r rows /\ nth pi (view h (snd r)) [] = k /\ nth pa (view h (snd r)) [] = a /\ main_operator k).
Proof.
  intros Hpa. induction rows as [|[n s] rows IH]; intros m HF.
  - exists m. split; [reflexivity|]. intros k a. split; [auto|]. intros [H|(r & [] & _)]. assumption.
  - inversion HF as [|? ? [H1 H2] HF']; subst. cbn [snd] in *. cbn [collect_asn].
    rewrite (idx_b _ _ H1). cbn [bind]. replace (pa =? 0) with false by lia.
    rewrite (idx_b _ _ H2). cbn [bind].
    destruct (in_array (nth pi (view h s) []) mainIsp) eqn:Em.
    + destruct (IH (add_asn (nth pi (view h s) []) (nth pa (view h s) []) m) HF') as (m' & E & C).
      exists m'. split; [assumption|]. intros k a. rewrite C, add_asn_In. apply in_main in Em. split.
      * intros [[[-> ->]|H]|(r & H3 & H4)]; [right; exists (n, s); cbn; auto 6|left; assumption|right; exists r; cbn; auto].
      * intros [H|(r & [<-|H3] & H4 & H5 & H6)]; [left; right; assumption| |right; exists r; auto].
        left. left. cbn in *. auto.
    + destruct (IH m HF') as (m' & E & C). exists m'. split; [assumption|]. intros k a. rewrite C. split.
      * intros [H|(r & H3 & H4)]; [left; assumption|right; exists r; cbn; auto].
      * intros [H|(r & [<-|H3] & H4 & H5 & H6)]; [left; assumption| |right; exists r; auto].
        cbn [snd] in H4. rewrite <- H4 in H6. apply in_main in H6. congruence.
Qed.

Lemma asnMatch_spec a m :
  (forall k v, In (k, v) m -> In a v -> k <> []) ->
  (asnMatchIsp a m <> [] /\ exists v, In (asnMatchIsp a m, v) m /\ In a v) \/
  (asnMatchIsp a m = [] /\ forall k v, In (k, v) m -> ~ In a v).
Proof.
  intros HN. induction m as [|[k v] m IH]; [right; split; [reflexivity|intros ? ? []]|]. cbn [asnMatchIsp].
  destruct (in_array a v) eqn:E.
  - left. apply in_array_iff in E. split; [apply (HN k v); [left; reflexivity|assumption]|].
    exists v. split; [left; reflexivity|assumption].
  - assert (~ In a v) as Na by (intros H; apply in_array_iff in H; congruence).
    destruct IH as [[H1 (v' & H2 & H3)]|[H1 H2]].
    + intros k' v' H. apply (HN k' v'). right. assumption.
    + left. split; [assumption|]. exists v'. split; [right; assumption|assumption].
    + right. split; [assumption|]. intros k' v' [E'|H]; [injection E' as <- <-; assumption|eauto].
Qed.

Lemma nth_error_length {A B} (l : list A) (m : list B) :
  (forall i, nth_error l i = None <-> nth_error m i = None) -> length l = length m.
Proof.
  intros H. pose proof (proj1 (H (length l)) (proj2 (nth_error_None l _) (le_n _))) as H1.
  pose proof (proj2 (H (length m)) (proj2 (nth_error_None m _) (le_n _))) as H2.
  apply nth_error_None in H1. apply nth_error_None in H2. lia.
Qed.

From Verif Require Import Base NetIP IpNet Spec IpNetProofs IpNetProofs2 NetTextProofs SpecExport SpecOperate OperateProofs OperateProofs2 BuildProofs ExportProofs.
From Verif Require Import Plain SpecText.
Open Scope nat_scope.

(** ** Scanning *)
Definition unlines (ls : list bytes) : bytes := flat_map (fun l => l ++ [x0a]) ls.

Lemma raw_lines_unlines ls : Forall (no_byte x0a) ls -> raw_lines (unlines ls) = ls.
Proof.
  intros H. unfold raw_lines.
  assert (E : split x0a (unlines ls) = ls ++ [[]]).
  { induction H as [|l ls Hl Hls IH]; [reflexivity|]. cbn [unlines flat_map]. fold (unlines ls).
    rewrite <- app_assoc. cbn [app]. rewrite split_app by assumption. rewrite IH. reflexivity. }
  rewrite E. rewrite rev_app_distr. cbn [rev app]. apply rev_involutive.
Qed.
Lemma until_long_all ls : Forall (fun l => (N.of_nat (length l) < 65536)%N) ls -> until_long ls = ls.
Proof.
  induction 1 as [|l ls H _ IH]; [reflexivity|]. cbn [until_long].
  destruct (N.ltb_spec (N.of_nat (length l)) 65536); [|lia]. rewrite IH. reflexivity.
Qed.
Lemma trim_cr_id l : no_byte x0d l -> trim_cr l = l.
Proof.
  intros H. unfold trim_cr. destruct (rev l) as [|c r] eqn:E; [reflexivity|].
  assert (c <> x0d). { intros ->. apply H. apply in_rev. rewrite E. left. reflexivity. }
  destruct c; try reflexivity. congruence.
Qed.
Lemma scan_unlines ls : Forall (no_byte x0a) ls -> Forall (no_byte x0d) ls ->
  Forall (fun l => (N.of_nat (length l) < 65536)%N) ls -> scan_lines (unlines ls) = ls.
Proof.
  intros H1 H2 H3. unfold scan_lines. rewrite raw_lines_unlines, until_long_all by assumption.
  induction H2 as [|l ls Hl _ IH]; [reflexivity|]. cbn [map]. rewrite trim_cr_id by assumption. f_equal.
  apply IH; [inversion H1|inversion H3]; assumption.
Qed.

(** ** Packing *)
Lemma uncomma_idem v : uncomma (uncomma v) = uncomma v.
Proof.
  unfold uncomma. rewrite map_map. apply map_ext. intros c. destruct (byte_eqb_spec c x2c) as [->|]; [reflexivity|].
  destruct (byte_eqb_spec c x2c); [congruence|reflexivity].
Qed.
Lemma uncomma_nil : uncomma [] = []. Proof. reflexivity. Qed.

(** h2 is h with some cells underscored. *)
Definition half (h h2 : heap) : Prop :=
  length h2 = length h /\ forall a, length (arr h2 a) = length (arr h a) /\
    forall i, nth i (arr h2 a) [] = nth i (arr h a) [] \/ nth i (arr h2 a) [] = uncomma (nth i (arr h a) []).

Lemma half_refl h : half h h. Proof. split; [reflexivity|]. intros a. split; [reflexivity|]. auto. Qed.

Lemma comma_cells_spec n : forall h s i,
  let h2 := comma_cells h s i n in
  length h2 = length h /\ forall a, length (arr h2 a) = length (arr h a) /\
    forall j, nth j (arr h2 a) [] =
      if (a =? sArr s) && (i <=? j) && (j <? i + n) then uncomma (nth j (arr h a) []) else nth j (arr h a) [].
Proof.
  induction n as [|k IH]; intros h s i h2.
  - unfold h2. cbn [comma_cells]. split; [reflexivity|]. intros a. split; [reflexivity|]. intros j.
    destruct (Nat.leb_spec i j); destruct (Nat.ltb_spec j (i + 0)); try lia; rewrite ?andb_false_r; reflexivity.
  - unfold h2. cbn [comma_cells]. set (h1 := hset h s i (uncomma (nth i (arr h (sArr s)) []))).
    destruct (IH h1 s (S i)) as [L Q]. split; [rewrite L; apply hset_length|].
    intros a. destruct (Q a) as [Q1 Q2]. split; [rewrite Q1; apply arr_length_hset|].
    intros j. rewrite Q2. unfold h1. rewrite arr_hset.
    destruct (Nat.eqb_spec a (sArr s)) as [->|N]; cbn [andb].
    + rewrite nth_upd. destruct (Nat.leb_spec (S i) j); destruct (Nat.ltb_spec j (S i + k)); cbn [andb];
        destruct (Nat.eqb_spec i j); cbn [andb]; try lia;
        destruct (Nat.leb_spec i j); destruct (Nat.ltb_spec j (i + S k)); cbn [andb]; try lia; try reflexivity.
      subst j. destruct (Nat.ltb_spec i (length (arr h (sArr s)))) as [|G]; [reflexivity|].
      rewrite nth_overflow by assumption. reflexivity.
    + reflexivity.
Qed.

Lemma half_step h0 h s n : half h0 h -> half h0 (comma_cells h s 0 n).
Proof.
  intros [L H]. destruct (comma_cells_spec n h s 0) as [L2 Q]. split; [rewrite L2; assumption|].
  intros a. destruct (H a) as [H1 H2]. destruct (Q a) as [Q1 Q2]. split; [congruence|].
  intros i. rewrite Q2. destruct (_ && _ && _); [|apply H2].
  right. destruct (H2 i) as [->| ->]; [reflexivity|apply uncomma_idem].
Qed.

Lemma nth_firstn' (v : list bytes) n i : i < n -> nth i (firstn n v) [] = nth i v [].
Proof. revert v i; induction n as [|n IH]; intros [|x v] [|i] H; try lia; try reflexivity. cbn. apply IH. lia. Qed.

Lemma view_done h0 h s : half h0 h -> legal_slc h0 s ->
  view (comma_cells h s 0 (sLen s)) s = map uncomma (view h0 s).
Proof.
  intros [L H] [G1 G2]. destruct (comma_cells_spec (sLen s) h s 0) as [L2 Q]. destruct (Q (sArr s)) as [Q1 Q2].
  destruct (H (sArr s)) as [H1 H2]. unfold view.
  apply (nth_ext _ _ ([] : bytes) (uncomma [])).
  - rewrite map_length, !firstn_length. lia.
  - intros i Hi. rewrite firstn_length in Hi. rewrite map_nth.
    rewrite !nth_firstn' by lia. rewrite Q2. rewrite Nat.eqb_refl. cbn [andb Nat.leb].
    destruct (Nat.ltb_spec i (0 + sLen s)); [|lia].
    destruct (H2 i) as [->| ->]; [reflexivity|apply uncomma_idem].
Qed.

Lemma half_view h hf s v : half h hf -> legal_slc h s -> view h s = map uncomma v -> view hf s = map uncomma v.
Proof.
  intros [L H] [G1 G2] V. destruct (H (sArr s)) as [H1 H2]. rewrite <- V. unfold view in *.
  apply (nth_ext _ _ ([] : bytes) []).
  - rewrite !firstn_length. lia.
  - intros i Hi. rewrite firstn_length in Hi. pose proof (f_equal (fun l => nth i l []) V) as N. cbn beta in N.
    rewrite !nth_firstn' in * by lia. rewrite <- uncomma_nil in N at 2. rewrite map_nth in N.
    destruct (H2 i) as [E|E]; [exact E|]. rewrite E, N. apply uncomma_idem.
Qed.
Lemma half_trans a b c : half a b -> half b c -> half a c.
Proof.
  intros [L H] [L2 H2]. split; [congruence|]. intros x. destruct (H x) as [P Q]. destruct (H2 x) as [P2 Q2].
  split; [congruence|]. intros i. destruct (Q2 i) as [->| ->]; [apply Q|]. right. destruct (Q i) as [->| ->]; [reflexivity|apply uncomma_idem].
Qed.
Lemma half_legal a b s : half a b -> legal_slc a s -> legal_slc b s.
Proof. intros [L H] [G1 G2]. split; [lia|]. destruct (H (sArr s)) as [H1 _]. lia. Qed.

Definition row_line_text (n : IPNet) (v : list bytes) : bytes := net_string n ++ x09 :: join x2c (map uncomma v).

Lemma pack_rows_spec h0 rows : forall h, half h0 h -> Forall (fun r => legal_slc h0 (snd r)) rows ->
  let '(h2, body) := pack_rows h rows in
  half h h2 /\ body = unlines (map (fun r => row_line_text (fst r) (view h0 (snd r))) rows) /\
  Forall (fun r => view h2 (snd r) = map uncomma (view h0 (snd r))) rows.
Proof.
  induction rows as [|[n s] rows IH]; intros h HH HL.
  - cbn. split; [apply half_refl|]. split; [reflexivity|constructor].
  - cbn [pack_rows]. inversion HL as [|? ? HS HR]; subst. cbn [snd] in HS.
    set (h1 := comma_cells h s 0 (sLen s)).
    assert (H1 : half h0 h1) by (apply half_step; assumption).
    specialize (IH h1 H1 HR). destruct (pack_rows h1 rows) as [h2 rest]. destruct IH as [A [B C]].
    assert (V : view h1 s = map uncomma (view h0 s)) by (apply view_done; assumption).
    split; [|split].
    + eapply half_trans; [|exact A]. apply half_step. apply half_refl.
    + cbn [map unlines flat_map fst snd]. fold (unlines (map (fun r => row_line_text (fst r) (view h0 (snd r))) rows)).
      rewrite <- B. unfold row_line_text. rewrite V. rewrite <- !app_assoc. cbn [app]. rewrite <- app_assoc. reflexivity.
    + constructor; [|assumption]. cbn [snd]. eapply half_view; [exact A|eapply half_legal; [exact H1|assumption]|assumption].
Qed.

(** ** Dumping *)
Lemma uncomma_no v : no_byte x2c (uncomma v).
Proof.
  intros H. apply in_map_iff in H. destruct H as [c [E _]]. destruct (byte_eqb_spec c x2c); [discriminate E|congruence].
Qed.
Lemma uncomma_keeps c v : c <> x5f -> no_byte c v -> no_byte c (uncomma v).
Proof.
  intros N H I. apply in_map_iff in I. destruct I as [x [E I]]. destruct (byte_eqb_spec x x2c); [congruence|]. subst. apply H. assumption.
Qed.

Lemma join_no c sep l : c <> sep -> Forall (no_byte c) l -> no_byte c (join sep l).
Proof.
  intros N F H. apply In_join in H. destruct H as [->|[x [H1 H2]]]; [congruence|].
  rewrite Forall_forall in F. exact (F x H1 H2).
Qed.

Lemma net_char_no c n b : net_is n b -> aligned b -> ~ net_char c -> no_byte c (net_string n).
Proof. intros H1 H2 H3 H. apply H3. eapply net_string_chars; eassumption. Qed.

Lemma tab_not_net : ~ net_char x09. Proof. intros [H|[H|[H|H]]]; try discriminate H. apply H. reflexivity. Qed.
Lemma nl_not_net : ~ net_char x0a. Proof. intros [H|[H|[H|H]]]; try discriminate H. apply H. reflexivity. Qed.
Lemma cr_not_net : ~ net_char x0d. Proof. intros [H|[H|[H|H]]]; try discriminate H. apply H. reflexivity. Qed.

Lemma parseLine_row fields n b v : net_is n b -> aligned b -> length v = length fields -> fields <> [] ->
  Forall (no_byte x09) v ->
  exists n', parseLine fields (row_line_text n v) = Ok (n', rev (combine fields (map uncomma v))) /\
    net_is n' b /\ length (nIP n') = (if is_nil (to4 (nIP n)) then 16 else 4).
Proof.
  intros HN AL HL HF HT. destruct (ParseCIDR_string n b HN AL) as [n' [P [Q L]]]. exists n'.
  assert (V : map uncomma v <> []) by (destruct v; [destruct fields; [congruence|discriminate HL]|discriminate]).
  split; [|auto]. unfold parseLine, row_line_text.
  assert (T : Forall (no_byte x09) (map uncomma v)).
  { rewrite Forall_map. eapply Forall_impl; [|exact HT]. intros x Hx. apply uncomma_keeps; [discriminate|assumption]. }
  rewrite split_app by (eapply net_char_no; eauto using tab_not_net).
  rewrite split_single by (apply join_no; [discriminate|assumption]).
  rewrite P. rewrite split_join; [|assumption|rewrite Forall_map; apply Forall_forall; intros; apply uncomma_no].
  rewrite map_length, HL, Nat.eqb_refl. reflexivity.
Qed.

Lemma last_ends n b : net_is n b -> aligned b -> length (nIP n) = (if is_nil (to4 (nIP n)) then 16 else 4) ->
  exists l, LastIP n = Ok l /\ (IsAllMask l = true <-> ends_family b).
Proof.
  intros HN AL HL. destruct (LastIP_aligned n b HN AL) as [l [E [LL A]]].
  exists l. split; [assumption|]. unfold IsAllMask. rewrite all_ff_ones. unfold all_ones, ends_family.
  pose proof (ni_len _ _ HN) as V. pose proof (ni_base _ _ HN) as B. destruct (to4_spec (nIP n) V) as [T1 T2].
  assert (VL : valid_ip l) by (unfold valid_ip in *; rewrite LL; assumption).
  rewrite addr_val in A by assumption. rewrite LL in *. rewrite HL in *.
  pose proof (pow_pos (logsz b)) as PP.
  pose proof (addr_bound (nIP n) V) as AB.
  destruct (to4 (nIP n)) as [|t0 t] eqn:E4; cbn [is_nil] in *; cbn [Nat.eqb] in A.
  - change (2 ^ (8 * N.of_nat 16))%N with (2 ^ 128)%N. unfold is_v4, v4base in *. split.
    + intros H. right. lia.
    + intros [[H _]|H]; [|lia]. exfalso. rewrite B in H. apply T1; [|reflexivity]. lia.
  - change (2 ^ (8 * N.of_nat 4))%N with (2 ^ 32)%N. destruct T1 as [T1 _]. specialize (T1 ltac:(discriminate)).
    rewrite <- B in T1. unfold is_v4, v4base in *. split.
    + intros H. left. lia.
    + intros [[_ H]|H]; [lia|]. exfalso.
      pose proof (val_bound l) as VB. rewrite LL in VB. change (2 ^ (8 * N.of_nat 4))%N with (2 ^ 32)%N in VB. lia.
Qed.

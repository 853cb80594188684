(** Proofs about the awdb search tree (C34-C36). *)
From Coq Require Import Sorting.Sorted.
From Verif Require Import Base NetIP IpNet Spec IpNetProofs SplitProofs IpNetProofs2 Ipdb Bits AwDecode SpecAw AwDecodeProofs AwTree SpecAwTree.
Open Scope N_scope.
Local Arguments N.of_nat : simpl never.

(** ** Node records *)
Lemma nb_app a b c i : N.of_nat (length a) = i -> nb (a ++ b :: c) i = Ok (b2n b).
Proof.
  intros <-. unfold nb, idx. rewrite Nat2N.id, nth_error_app2, Nat.sub_diag by lia. reflexivity.
Qed.
Lemma be_enc3 v : v < 2 ^ 24 -> exists x y z, be_enc 3 v = [x; y; z] /\ v = b2n x * 2 ^ 16 + b2n y * 2 ^ 8 + b2n z.
Proof.
  intros H. assert (E := val_be_enc 3 v). change (2 ^ (8 * N.of_nat 3)) with (2 ^ 24) in E.
  rewrite N.mod_small in E by assumption. assert (L := be_enc_length 3 v).
  destruct (be_enc 3 v) as [|x [|y [|z [|]]]]; try discriminate. exists x, y, z. split; [reflexivity|].
  rewrite <- E. cbn [val length]. change (8 * N.of_nat 2) with 16. change (8 * N.of_nat 1) with 8.
  change (2 ^ (8 * N.of_nat 0)) with 1. lia.
Qed.
Lemma be_enc3' v : exists x y z, be_enc 3 v = [x; y; z] /\ v mod 2 ^ 24 = b2n x * 2 ^ 16 + b2n y * 2 ^ 8 + b2n z.
Proof.
  rewrite <- (be_enc_mod 3 v). change (2 ^ (8 * N.of_nat 3)) with (2 ^ 24). apply be_enc3.
  apply N.mod_upper_bound. discriminate.
Qed.
Lemma be_enc4 v : v < 2 ^ 32 -> exists w x y z, be_enc 4 v = [w; x; y; z] /\
  v = b2n w * 2 ^ 24 + b2n x * 2 ^ 16 + b2n y * 2 ^ 8 + b2n z.
Proof.
  intros H. assert (E := val_be_enc 4 v). change (2 ^ (8 * N.of_nat 4)) with (2 ^ 32) in E.
  rewrite N.mod_small in E by assumption. assert (L := be_enc_length 4 v).
  destruct (be_enc 4 v) as [|w [|x [|y [|z [|]]]]]; try discriminate. exists w, x, y, z. split; [reflexivity|].
  rewrite <- E. cbn [val length]. change (8 * N.of_nat 3) with 24. change (8 * N.of_nat 2) with 16. change (8 * N.of_nat 1) with 8.
  change (2 ^ (8 * N.of_nat 0)) with 1. lia.
Qed.
(** Reading byte j of a node stored behind pre. *)
Lemma nb_at (pre l post : bytes) j x : nth_error l j = Some x ->
  nb (pre ++ l ++ post) (N.of_nat (length pre) + N.of_nat j) = Ok (b2n x).
Proof.
  intros H. unfold nb, idx. rewrite nth_error_app2 by lia.
  replace (N.to_nat (N.of_nat (length pre) + N.of_nat j) - length pre)%nat with j by lia.
  rewrite nth_error_app1, H; [reflexivity|]. apply nth_error_Some. congruence.
Qed.
Lemma node_read (rs : N) (l r : N) pre post : record_size rs -> fits rs (l, r) ->
  let nodes := pre ++ node_bytes rs (l, r) ++ post in let o := N.of_nat (length pre) in
  (if rs =? 24 then readLeft24 nodes o else if rs =? 28 then readLeft28 nodes o else readLeft32 nodes o) = Ok l /\
  (if rs =? 24 then readRight24 nodes o else if rs =? 28 then readRight28 nodes o else readRight32 nodes o) = Ok r.
Proof.
  intros Hrs [Fl Fr] nodes o. cbn [fst snd] in *. subst nodes o. set (o := N.of_nat (length pre)).
  assert (A : forall (l : bytes) j x, nth_error l j = Some x -> nb (pre ++ l ++ post) (o + N.of_nat j) = Ok (b2n x)) by (intros; now apply nb_at).
  assert (A0 : forall (l : bytes) x, nth_error l 0 = Some x -> nb (pre ++ l ++ post) o = Ok (b2n x)).
  { intros l0 x H. rewrite <- (A l0 0%nat x H). f_equal. lia. }
  destruct Hrs as [->|[->| ->]]; cbn [N.eqb Pos.eqb node_bytes].
  - destruct (be_enc3 l Fl) as (x & y & z & -> & ->). destruct (be_enc3 r Fr) as (x' & y' & z' & -> & ->).
    change ([x; y; z] ++ [x'; y'; z']) with [x; y; z; x'; y'; z'].
    split; unfold readLeft24, readRight24.
    + rewrite (A0 _ x), (A _ 1%nat y), (A _ 2%nat z) by reflexivity. reflexivity.
    + rewrite (A _ 3%nat x'), (A _ 4%nat y'), (A _ 5%nat z') by reflexivity. reflexivity.
  - assert (Hl := N.div_mod' l (2 ^ 24)). assert (Hr := N.div_mod' r (2 ^ 24)).
    assert (Dl : l / 2 ^ 24 < 16) by (apply N.div_lt_upper_bound; [discriminate|exact Fl]).
    assert (Dr : r / 2 ^ 24 < 16) by (apply N.div_lt_upper_bound; [discriminate|exact Fr]).
    destruct (be_enc3' l) as (x & y & z & -> & El). destruct (be_enc3' r) as (x' & y' & z' & -> & Er).
    set (c := n2b (l / 2 ^ 24 * 16 + r / 2 ^ 24)).
    change ([x; y; z] ++ [c] ++ [x'; y'; z']) with [x; y; z; c; x'; y'; z'].
    assert (Ec : b2n c = l / 2 ^ 24 * 16 + r / 2 ^ 24) by (unfold c; rewrite b2n_n2b, N.mod_small by lia; reflexivity).
    split; unfold readLeft28, readRight28.
    + rewrite (A _ 3%nat c), (A0 _ x), (A _ 1%nat y), (A _ 2%nat z) by reflexivity. cbn [bind]. rewrite Ec. f_equal.
      set (dl := l / 2 ^ 24) in *. set (dr := r / 2 ^ 24) in *. replace ((dl * 16 + dr) / 16) with dl by (clear - Dr; lia). lia.
    + rewrite (A _ 3%nat c), (A _ 4%nat x'), (A _ 5%nat y'), (A _ 6%nat z') by reflexivity. cbn [bind]. rewrite Ec. f_equal.
      set (dl := l / 2 ^ 24) in *. set (dr := r / 2 ^ 24) in *. replace ((dl * 16 + dr) mod 16) with dr by (clear - Dr; lia). lia.
  - destruct (be_enc4 l Fl) as (w & x & y & z & -> & ->). destruct (be_enc4 r Fr) as (w' & x' & y' & z' & -> & ->).
    change ([w; x; y; z] ++ [w'; x'; y'; z']) with [w; x; y; z; w'; x'; y'; z'].
    split; unfold readLeft32, readRight32.
    + rewrite (A0 _ w), (A _ 1%nat x), (A _ 2%nat y), (A _ 3%nat z) by reflexivity. reflexivity.
    + rewrite (A _ 4%nat w'), (A _ 5%nat x'), (A _ 6%nat y'), (A _ 7%nat z') by reflexivity. reflexivity.
Qed.
Lemma node_bytes_length rs lr : record_size rs -> N.of_nat (length (node_bytes rs lr)) = rs / 4.
Proof.
  destruct lr as [l r]. intros [->|[->| ->]]; cbn [node_bytes N.eqb Pos.eqb]; rewrite ?app_length, ?be_enc_length; reflexivity.
Qed.
Lemma nodes_length rs tbl : record_size rs -> N.of_nat (length (flat_map (node_bytes rs) tbl)) = N.of_nat (length tbl) * (rs / 4).
Proof.
  intros H. induction tbl as [|lr tbl IH]; [reflexivity|]. cbn [flat_map length]. rewrite app_length.
  assert (E := node_bytes_length rs lr H). lia.
Qed.
Lemma read_spec rs tbl i l r b : record_size rs -> Forall (fits rs) tbl -> nth_error tbl (N.to_nat i) = Some (l, r) ->
  i < 2 ^ 60 -> read rs (flat_map (node_bytes rs) tbl) b i = Ok (if b then r else l).
Proof.
  intros Hrs HF Hi Hb. apply nth_error_split in Hi as (t1 & t2 & -> & Hl).
  rewrite flat_map_app. cbn [flat_map].
  assert (F : fits rs (l, r)) by (apply Forall_app in HF as [_ HF]; now inversion HF).
  destruct (node_read rs l r (flat_map (node_bytes rs) t1) (flat_map (node_bytes rs) t2) Hrs F) as [R1 R2].
  assert (E : N.of_nat (length (flat_map (node_bytes rs) t1)) = u64 (i * (rs / 4))).
  { rewrite nodes_length, Hl by assumption. unfold u64. rewrite N.mod_small; [f_equal; lia|].
    assert (rs / 4 <= 8) by (destruct Hrs as [->|[->| ->]]; discriminate).
    change (2 ^ 64) with (16 * 2 ^ 60). set (P := 2 ^ 60) in *. clearbody P. nia. }
  rewrite E in R1, R2. unfold read. destruct b.
  - destruct (rs =? 24); [assumption|]. destruct (rs =? 28); assumption.
  - destruct (rs =? 24); [assumption|]. destruct (rs =? 28); assumption.
Qed.

Lemma be_enc_val' n l : length l = n -> be_enc n (val l) = l.
Proof. intros <-. apply be_enc_val. Qed.
(** Every node buffer of the right length is such a table. *)
Lemma node_of_bytes rs bs : record_size rs -> N.of_nat (length bs) = rs / 4 -> exists lr, fits rs lr /\ node_bytes rs lr = bs.
Proof.
  intros [->|[->| ->]] L; cbn in L.
  - change (24 / 4) with (N.of_nat 6) in L. apply Nat2N.inj in L.
    exists (val (firstn 3 bs), val (skipn 3 bs)).
    assert (L1 : length (firstn 3 bs) = 3%nat) by (rewrite firstn_length; lia).
    assert (L2 : length (skipn 3 bs) = 3%nat) by (rewrite skipn_length; lia). split.
    + split; cbn [fst snd]; [assert (B := val_bound (firstn 3 bs)); rewrite L1 in B | assert (B := val_bound (skipn 3 bs)); rewrite L2 in B]; exact B.
    + cbn [node_bytes N.eqb Pos.eqb]. rewrite !be_enc_val' by assumption. apply firstn_skipn.
  - change (28 / 4) with (N.of_nat 7) in L. apply Nat2N.inj in L.
    destruct bs as [|x [|y [|z [|c [|x' [|y' [|z' [|]]]]]]]]; try discriminate.
    assert (Hc := b2n_lt c).
    assert (B : forall p q r : byte, val [p; q; r] < 2 ^ 24) by (intros; apply (val_bound [p; q; r])).
    exists (b2n c / 16 * 2 ^ 24 + val [x; y; z], b2n c mod 16 * 2 ^ 24 + val [x'; y'; z']).
    assert (B1 := B x y z). assert (B2 := B x' y' z').
    set (u := val [x; y; z]) in *. set (v := val [x'; y'; z']) in *.
    split.
    + split; cbn [fst snd]; change (2 ^ 28) with (16 * 2 ^ 24); change (2 ^ 24) with 16777216 in *; lia.
    + cbn [node_bytes N.eqb Pos.eqb].
      assert (E1 : be_enc 3 (b2n c / 16 * 2 ^ 24 + u) = [x; y; z]).
      { rewrite <- be_enc_mod. change (2 ^ (8 * N.of_nat 3)) with (2 ^ 24). rewrite N.add_comm, N.mod_add, N.mod_small by (assumption || discriminate).
        apply (be_enc_val [x; y; z]). }
      assert (E2 : be_enc 3 (b2n c mod 16 * 2 ^ 24 + v) = [x'; y'; z']).
      { rewrite <- be_enc_mod. change (2 ^ (8 * N.of_nat 3)) with (2 ^ 24). rewrite N.add_comm, N.mod_add, N.mod_small by (assumption || discriminate).
        apply (be_enc_val [x'; y'; z']). }
      rewrite E1, E2. cbn [app]. repeat f_equal.
      change (2 ^ 24) with 16777216 in *.
      replace ((b2n c / 16 * 16777216 + u) / 16777216) with (b2n c / 16) by lia.
      replace ((b2n c mod 16 * 16777216 + v) / 16777216) with (b2n c mod 16) by lia.
      replace (b2n c / 16 * 16 + b2n c mod 16) with (b2n c) by lia. apply n2b_b2n.
  - change (32 / 4) with (N.of_nat 8) in L. apply Nat2N.inj in L.
    exists (val (firstn 4 bs), val (skipn 4 bs)).
    assert (L1 : length (firstn 4 bs) = 4%nat) by (rewrite firstn_length; lia).
    assert (L2 : length (skipn 4 bs) = 4%nat) by (rewrite skipn_length; lia). split.
    + split; cbn [fst snd]; [assert (B := val_bound (firstn 4 bs)); rewrite L1 in B | assert (B := val_bound (skipn 4 bs)); rewrite L2 in B]; exact B.
    + cbn [node_bytes N.eqb Pos.eqb]. rewrite !be_enc_val' by assumption. apply firstn_skipn.
Qed.
Lemma table_of_bytes rs n : record_size rs -> forall bs, N.of_nat (length bs) = N.of_nat n * (rs / 4) ->
  exists tbl, length tbl = n /\ Forall (fits rs) tbl /\ flat_map (node_bytes rs) tbl = bs.
Proof.
  intros Hrs. set (m := rs / 4).
  induction n; intros bs L.
  - exists []. destruct bs; [auto|cbn [length] in L; lia].
  - assert (Lm : (N.to_nat m <= length bs)%nat) by lia.
    destruct (IHn (skipn (N.to_nat m) bs)) as (tbl & Lt & Ft & Et); [rewrite skipn_length; lia|].
    destruct (node_of_bytes rs (firstn (N.to_nat m) bs) Hrs) as (lr & Fl & El).
    { rewrite firstn_length. fold m. lia. }
    exists (lr :: tbl). repeat split; [cbn; lia|constructor; assumption|]. cbn [flat_map]. rewrite El, Et. apply firstn_skipn.
Qed.

(** ** Walking *)
Lemma aw_bit_bits ip i : aw_bit ip i = match nth_error (bits ip) i with Some b => Ok b | None => Panic end.
Proof.
  rewrite <- ip_bit_bits. unfold aw_bit, ip_bit. destruct (idx ip (i / 8)) as [x| | |]; try reflexivity. cbn [bind].
  f_equal. f_equal. f_equal. rewrite N.land_comm. change 255 with (N.ones 8). rewrite N.land_ones.
  symmetry. apply N.mod_small. exact (b2n_lt x).
Qed.
Lemma reach_fun tbl s p n m : reach tbl s p n -> reach tbl s p m -> n = m.
Proof.
  intros H. revert m. induction H as [|p n lr b H IH E]; intros m Hm.
  - inversion Hm as [|q]; [reflexivity|]. destruct q; discriminate.
  - inversion Hm as [E0|q n' lr' b' H' E' E1 E2]; [destruct p; discriminate|].
    apply app_inj_tail in E1 as [-> ->]. rewrite (IH _ H') in E. rewrite E in E'. now injection E' as ->.
Qed.
Lemma reach_app tbl s p n q m : reach tbl s p n -> reach tbl n q m -> reach tbl s (p ++ q) m.
Proof.
  intros H H2. induction H2 as [|q m lr b H2 IH E]; [now rewrite app_nil_r|].
  rewrite app_assoc. now apply reach_step with m.
Qed.
Lemma reach_split tbl s p q m : reach tbl s (p ++ q) m -> exists n, reach tbl s p n /\ reach tbl n q m.
Proof.
  revert m. induction q as [|b q IH] using rev_ind; intros m H.
  - rewrite app_nil_r in H. exists m. split; [assumption|constructor].
  - rewrite app_assoc in H. inversion H as [E|p' n lr b' H' E1 E2 E3]; [destruct (p ++ q); discriminate|].
    apply app_inj_tail in E2 as [-> ->]. destruct (IH _ H') as (k & K1 & K2). exists k. split; [assumption|].
    now apply reach_step with n.
Qed.
Lemma reach_inner tbl s q m : reach tbl s q m -> q <> [] -> inner tbl s.
Proof.
  intros H. induction H as [|p n lr b H IH E]; intros Hq; [now destruct Hq|].
  destruct p as [|b0 p]; [|apply IH; discriminate].
  inversion H as [|p']; [subst|destruct p'; discriminate].
  unfold inner. assert (N.to_nat n < length tbl)%nat by (apply nth_error_Some; congruence). lia.
Qed.
Lemma reach_stop tbl s p v q w : reach tbl s p v -> ~ inner tbl v -> reach tbl s (p ++ q) w -> q = [] /\ w = v.
Proof.
  intros H1 H2 H3. destruct (reach_split _ _ _ _ _ H3) as (n & R1 & R2).
  rewrite <- (reach_fun _ _ _ _ _ H1 R1) in R2. destruct q as [|b q].
  - split; [reflexivity|]. inversion R2 as [|p']; [reflexivity|destruct p'; discriminate].
  - exfalso. apply H2. apply (reach_inner _ _ _ _ R2). discriminate.
Qed.

Section Tree.
Variables (rs : N) (tbl : list (N * N)).
Hypothesis Hrs : record_size rs.
Hypothesis HF : Forall (fits rs) tbl.
Let nodes := flat_map (node_bytes rs) tbl.
Let nc := N.of_nat (length tbl).

Lemma entry_small n lr (b : bool) : nth_error tbl n = Some lr -> (if b then snd lr else fst lr) < 2 ^ 32.
Proof.
  intros H. apply nth_error_In in H. rewrite Forall_forall in HF. destruct (HF _ H) as [F1 F2].
  assert (2 ^ rs <= 2 ^ 32) by (apply N.pow_le_mono_r; [discriminate|]; destruct Hrs as [->|[->| ->]]; discriminate).
  destruct b; lia.
Qed.
Lemma reach_small s p n : s < 2 ^ 32 -> reach tbl s p n -> n < 2 ^ 32.
Proof. intros Hs H. destruct H; [assumption|]. now apply entry_small with (N.to_nat n). Qed.
Lemma read_inner n b : inner tbl n -> n < 2 ^ 32 -> exists lr, nth_error tbl (N.to_nat n) = Some lr /\
  read rs nodes b n = Ok (if b then snd lr else fst lr).
Proof.
  intros Hn Hs. destruct (nth_error tbl (N.to_nat n)) as [[l r]|] eqn:E.
  - exists (l, r). split; [reflexivity|]. unfold nodes. rewrite (read_spec rs tbl n l r b Hrs HF E); [reflexivity|].
    eapply N.lt_trans; [exact Hs|reflexivity].
  - apply nth_error_None in E. unfold inner in Hn. lia.
Qed.
Lemma traverse_ok ip s k i node : s < 2 ^ 32 -> (i + k <= length (bits ip))%nat ->
  reach tbl s (firstn i (bits ip)) node ->
  exists v j, traverse_loop rs nc nodes ip k i node = Ok (v, j) /\ (i <= j <= i + k)%nat /\
    reach tbl s (firstn j (bits ip)) v /\ ((j = i + k)%nat \/ ~ inner tbl v).
Proof.
  intros Hs. revert i node. induction k; intros i node L R.
  - exists node, i. cbn. repeat split; try lia; auto.
  - cbn [traverse_loop]. destruct (N.ltb_spec node nc) as [Hn|Hn].
    + rewrite aw_bit_bits. destruct (nth_error (bits ip) i) as [b|] eqn:Eb; [|apply nth_error_None in Eb; lia].
      cbn [bind]. destruct (read_inner node b Hn (reach_small _ _ _ Hs R)) as (lr & E1 & ->). cbn [bind].
      destruct (IHk (S i) (if b then snd lr else fst lr)) as (v & j & E2 & B & R2 & St); [lia| |].
      * assert (E : firstn (S i) (bits ip) = firstn i (bits ip) ++ [b]).
        { apply nth_error_split in Eb as (l1 & l2 & -> & <-).
          rewrite !firstn_app, firstn_all, Nat.sub_diag. rewrite firstn_all2 by lia.
          replace (S (length l1) - length l1)%nat with 1%nat by lia. cbn. now rewrite app_nil_r. }
        rewrite E. now apply reach_step with node.
      * exists v, j. repeat split; try assumption; try lia. destruct St; [left; lia|now right].
    + exists node, i. repeat split; try lia; auto. right. unfold inner. fold nc. lia.
Qed.
Lemma v4_ok k i node : (i + k <= 96)%nat -> reach tbl 0 (repeat false i) node ->
  exists v j, v4_loop rs nc nodes k i node = Ok (v, j) /\ (i <= j <= i + k)%nat /\
    reach tbl 0 (repeat false j) v /\ ((j = i + k)%nat \/ ~ inner tbl v).
Proof.
  revert i node. induction k; intros i node L R.
  - exists node, i. cbn. repeat split; try lia; auto.
  - cbn [v4_loop]. destruct (N.ltb_spec node nc) as [Hn|Hn].
    + destruct (read_inner node false Hn (reach_small 0 _ _ eq_refl R)) as (lr & E1 & ->). cbn [bind].
      destruct (IHk (S i) (fst lr)) as (v & j & E2 & B & R2 & St); [lia| |].
      * replace (S i) with (i + 1)%nat by lia. rewrite repeat_app. now apply (reach_step tbl 0 _ node lr false).
      * exists v, j. repeat split; try assumption; try lia. destruct St; [left; lia|now right].
    + exists node, i. repeat split; try lia; auto. right. unfold inner. fold nc. lia.
Qed.
(** The end of a walk depends only on the bits walked. *)
Lemma walk_same s ip ip' j v j' v' : length (bits ip) = length (bits ip') -> (j <= length (bits ip))%nat -> (j' <= length (bits ip))%nat ->
  reach tbl s (firstn j (bits ip)) v -> ~ inner tbl v ->
  reach tbl s (firstn j' (bits ip')) v' -> ((j' = length (bits ip))%nat \/ ~ inner tbl v') ->
  firstn j (bits ip) = firstn j (bits ip') -> j' = j /\ v' = v.
Proof.
  intros L Hj Hj' R1 N1 R2 St E.
  assert (P : forall a b, (a <= b)%nat -> (b <= length (bits ip'))%nat -> firstn b (bits ip') = firstn a (bits ip') ++ skipn a (firstn b (bits ip'))).
  { intros a b Hab Hb. rewrite <- (firstn_skipn a (firstn b (bits ip'))) at 1. f_equal. rewrite firstn_firstn. f_equal. lia. }
  assert (Q : forall a b, (a < b)%nat -> (b <= length (bits ip'))%nat -> skipn a (firstn b (bits ip')) <> []).
  { intros a b Hab Hb X. apply (f_equal (@length bool)) in X. rewrite skipn_length, firstn_length in X. cbn in X. lia. }
  rewrite E in R1. destruct (Nat.lt_total j' j) as [H|[H|H]].
  - exfalso. rewrite (P j' j) in R1 by lia. destruct St as [St|St]; [lia|].
    destruct (reach_stop _ _ _ _ _ _ R2 St R1) as [X _]. revert X. apply Q; lia.
  - subst j'. split; [reflexivity|]. now apply (reach_fun _ _ _ _ _ R2).
  - exfalso. rewrite (P j j') in R2 by lia.
    destruct (reach_stop _ _ _ _ _ _ R1 N1 R2) as [X _]. revert X. apply Q; lia.
Qed.
End Tree.

(** ** Lookups *)
Definition canon (ip : bytes) : bytes := if is_nil (to4 ip) then ip else to4 ip.
Lemma canon_spec ip : valid_ip ip -> valid_ip (canon ip) /\ addr (canon ip) = addr ip /\
  ((length (canon ip) = 4)%nat <-> is_v4 (addr ip)).
Proof.
  intros V. destruct (to4_spec ip V) as [T1 T2]. unfold canon, is_v4, v4base.
  destruct (to4 ip) as [|t0 t] eqn:E; cbn [is_nil].
  - split; [assumption|]. split; [reflexivity|]. split.
    + intros L. exfalso. unfold to4 in E. rewrite L in E. cbn in E. subst ip. discriminate.
    + intros H. exfalso. apply (proj2 T1); [lia|reflexivity].
  - destruct (T2 ltac:(discriminate)) as [L A]. split; [now left|]. split; [assumption|]. split; [|intros _; exact L].
    intros _. destruct T1 as [T1 _]. specialize (T1 ltac:(discriminate)). lia.
Qed.
Definition start (r : awReader) (c : bytes) : N := if (length c =? 4)%nat then wV4Start r else 0.

Section Lookup.
Variables (r : awReader) (tbl : list (N * N)).
Hypothesis R : reads r tbl.
Lemma start_small c : start r c < 2 ^ 32.
Proof.
  destruct R as [R1 R2 _ _ R5 R6]. unfold start. destruct (length c =? 4)%nat; [|reflexivity].
  destruct (N.eq_dec (aIPVersion (wMeta r)) 6) as [E|E]; [|rewrite R5 by assumption; reflexivity].
  destruct (R6 E) as [R7 _]. revert R7. eapply reach_small; eauto. reflexivity.
Qed.
Lemma lookup_char ip : valid_ip ip -> (is_v4 (addr ip) \/ aIPVersion (wMeta r) <> 4) ->
  exists v j, let c := canon ip in
    (j <= length (bits c))%nat /\ reach tbl (start r c) (firstn j (bits c)) v /\
    ((j = length (bits c))%nat \/ ~ inner tbl v) /\
    lookupPointer r ip = (if v =? N.of_nat (length tbl) then Ok (0, j, c)
                          else if N.of_nat (length tbl) <? v then Ok (v, j, c) else Err ErrInvalidDb).
Proof.
  intros V HV. destruct (canon_spec ip V) as (Vc & Ac & Lc). cbv zeta.
  assert (Sm := start_small (canon ip)).
  destruct R as [R1 R2 R3 R4 R5 R6].
  destruct (traverse_ok (aRecordSize (wMeta r)) tbl R1 R2 (canon ip) (start r (canon ip)) (length (bits (canon ip))) 0 (start r (canon ip)))
    as (v & j & E & B & Rv & St); [assumption|lia|constructor|].
  exists v, j. split; [lia|]. split; [assumption|]. split; [destruct St; [left; lia|now right]|].
  unfold lookupPointer. destruct (is_nil ip) eqn:En; [destruct ip; [destruct V; discriminate|discriminate]|].
  fold (canon ip).
  assert (C : (length (canon ip) =? 16)%nat && (aIPVersion (wMeta r) =? 4) = false).
  { destruct HV as [HV|HV].
    - apply Lc in HV. rewrite HV. reflexivity.
    - apply N.eqb_neq in HV. rewrite HV. apply andb_false_r. }
  rewrite C. unfold traverseTree. rewrite R3, R4.
  replace (length (canon ip) * 8)%nat with (length (bits (canon ip))) by (rewrite bits_length; lia).
  assert (S' : (if (length (bits (canon ip)) =? 32)%nat then wV4Start r else 0) = start r (canon ip)).
  { unfold start. rewrite bits_length. destruct Vc as [-> | ->]; reflexivity. }
  rewrite S'. rewrite E. reflexivity.
Qed.
End Lookup.

(** The network of the first j bits of an address. *)
Definition wnet (c : bytes) (j : nat) : IPNet :=
  let w := 8 * N.of_nat (length c) - N.of_nat j in
  mkNet (be_enc (length c) (val c / 2 ^ w * 2 ^ w)) (mask_bytes (length c) j).
Lemma mask_wnet c j : valid_ip c -> (j <= 8 * length c)%nat ->
  (let mask := CIDRMask (Z.of_nat j) (Z.of_nat (length c) * 8) in mkNet (ip_mask c mask) mask) = wnet c j.
Proof.
  intros V Hj. cbv zeta. rewrite CIDRMask_ok by (destruct V; lia). unfold wnet. f_equal.
  assert (E : ip_mask c (mask_bytes (length c) j) = zip_with byte_and c (mask_bytes (length c) j)).
  { unfold ip_mask. rewrite mask_bytes_length. destruct V as [V|V]; rewrite V; cbn [Nat.eqb andb].
    - rewrite mask_bytes_length. cbn [Nat.eqb andb]. rewrite V. reflexivity.
    - rewrite mask_bytes_length. cbn [Nat.eqb andb]. rewrite V. reflexivity. }
  rewrite E. apply val_inj.
  - rewrite zip_with_length by now rewrite mask_bytes_length. now rewrite be_enc_length.
  - rewrite mask_val by assumption. rewrite val_be_enc. symmetry. apply N.mod_small.
    assert (B := val_bound c). set (w := 8 * N.of_nat (length c) - N.of_nat j).
    assert (D := N.mul_div_le (val c) (2 ^ w)). assert (P := pow_pos w). specialize (D ltac:(lia)). lia.
Qed.
Lemma wnet_is c j : valid_ip c -> (j <= 8 * length c)%nat ->
  let w := 8 * N.of_nat (length c) - N.of_nat j in
  net_is (wnet c j) (mkBlock ((if (length c =? 4)%nat then v4base else 0) + val c / 2 ^ w * 2 ^ w) w).
Proof.
  intros V Hj w. assert (L : length (nIP (wnet c j)) = length c) by (unfold wnet; cbn [nIP]; apply be_enc_length).
  assert (B := val_bound c). assert (D := N.mul_div_le (val c) (2 ^ w)). assert (P := pow_pos w). specialize (D ltac:(lia)).
  constructor; rewrite ?L; cbn [base logsz].
  - unfold valid_ip in *. now rewrite L.
  - unfold wnet. cbn [nMask]. apply mask_bytes_length.
  - lia.
  - unfold wnet. cbn [nMask]. now rewrite mask_bytes_val.
  - rewrite addr_val by (unfold valid_ip in *; now rewrite L). rewrite L. f_equal.
    unfold wnet. cbn [nIP]. fold w. rewrite val_be_enc, N.mod_small by lia. reflexivity.
Qed.
Lemma wnet_aligned c j : valid_ip c -> (j <= 8 * length c)%nat ->
  let w := 8 * N.of_nat (length c) - N.of_nat j in
  aligned (mkBlock ((if (length c =? 4)%nat then v4base else 0) + val c / 2 ^ w * 2 ^ w) w).
Proof.
  intros V Hj w. unfold aligned. cbn [base logsz]. assert (P := pow_pos w).
  rewrite N.mod_add by lia.
  destruct (Nat.eqb_spec (length c) 4) as [E|E]; [|apply N.mod_0_l; lia].
  unfold v4base. replace (2 ^ 32) with (2 ^ (32 - w) * 2 ^ w).
  - rewrite N.mul_assoc. apply N.mod_mul. lia.
  - rewrite <- N.pow_add_r. f_equal. unfold w. rewrite E. lia.
Qed.
Lemma wnet_same c c' j : length c = length c' -> (j <= 8 * length c)%nat -> firstn j (bits c) = firstn j (bits c') -> wnet c j = wnet c' j.
Proof.
  intros L Hj E. apply firstn_bits_eq in E; [|assumption..]. unfold wnet. rewrite <- L.
  replace (8 * N.of_nat (length c) - N.of_nat j) with (N.of_nat (8 * length c - j)) by lia. now rewrite E.
Qed.
Lemma div_block v u k : u / 2 ^ k * 2 ^ k <= v < u / 2 ^ k * 2 ^ k + 2 ^ k <-> v / 2 ^ k = u / 2 ^ k.
Proof.
  assert (P := pow_pos k). set (K := 2 ^ k) in *. clearbody K. split; intros H.
  - symmetry. apply (N.div_unique v K (u / K) (v - u / K * K)); nia.
  - rewrite <- H. assert (D := N.mul_div_le v K). assert (M := N.mul_succ_div_gt v K). lia.
Qed.
Lemma wnet_in c c' j : length c = length c' -> (j <= 8 * length c)%nat ->
  let w := 8 * N.of_nat (length c) - N.of_nat j in let o := if (length c =? 4)%nat then v4base else 0 in
  in_block (mkBlock (o + val c / 2 ^ w * 2 ^ w) w) (o + val c') <-> firstn j (bits c) = firstn j (bits c').
Proof.
  intros L Hj w o. rewrite firstn_bits_eq by assumption.
  replace (N.of_nat (8 * length c - j)) with w by (unfold w; lia).
  unfold in_block. cbn [base logsz].
  assert (D := div_block (val c') (val c) w). set (X := val c / 2 ^ w * 2 ^ w) in *. split; intros H.
  - symmetry. apply D. lia.
  - symmetry in H. apply D in H. lia.
Qed.

Section Lookup2.
Variables (r : awReader) (tbl : list (N * N)).
Hypothesis R : reads r tbl.
Lemma no_inner v : (v =? N.of_nat (length tbl)) = true \/ (N.of_nat (length tbl) <? v) = true -> ~ inner tbl v.
Proof. unfold inner. lia. Qed.
(** A successful lookup, explained. *)
Lemma network_char ip net rec : valid_ip ip -> LookupNetwork r ip = Ok (net, rec) ->
  exists v j, let c := canon ip in
    (j <= 8 * length c)%nat /\ reach tbl (start r c) (firstn j (bits c)) v /\ ~ inner tbl v /\
    (length c = 16%nat -> aIPVersion (wMeta r) <> 4) /\
    net = aw_cidr r c j /\
    ((no_data tbl v /\ rec = None) \/ (data_at tbl v /\ exists w, retrieveData r v = Ok w /\ rec = Some w)) /\
    forall ip', valid_ip ip' -> length (canon ip') = length c -> firstn j (bits c) = firstn j (bits (canon ip')) ->
      LookupNetwork r ip' = Ok (aw_cidr r (canon ip') j, rec).
Proof.
  intros V H.
  destruct (canon_spec ip V) as (Vc & Ac & Lc).
  assert (HV : length (canon ip) = 16%nat -> aIPVersion (wMeta r) <> 4).
  { intros L E. unfold LookupNetwork, lookupPointer in H. destruct (is_nil ip); [discriminate|].
    fold (canon ip) in H. rewrite L, E in H. discriminate. }
  assert (HV' : is_v4 (addr ip) \/ aIPVersion (wMeta r) <> 4).
  { destruct Vc as [Vc|Vc]; [left; now apply Lc | right; auto]. }
  destruct (lookup_char r tbl R ip V HV') as (v & j & Hj & Rv & St & E). cbv zeta in *.
  rewrite bits_length in Hj.
  exists v, j. cbv zeta. split; [assumption|]. split; [assumption|].
  assert (NI : ~ inner tbl v /\ net = aw_cidr r (canon ip) j /\
    ((no_data tbl v /\ rec = None) \/ (data_at tbl v /\ exists w, retrieveData r v = Ok w /\ rec = Some w)) /\
    forall c', (let* ' (pointer, prefixLength, ip0) := (if v =? N.of_nat (length tbl) then Ok (0, j, c') else if N.of_nat (length tbl) <? v then Ok (v, j, c') else Err ErrInvalidDb) in
      let network := aw_cidr r ip0 prefixLength in
      if pointer =? 0 then Ok (network, None) else let* v0 := retrieveData r pointer in Ok (network, Some v0)) = Ok (aw_cidr r c' j, rec)).
  { unfold LookupNetwork in H. rewrite E in H.
    destruct (N.eqb_spec v (N.of_nat (length tbl))) as [E1|E1].
    - cbn [bind] in *. rewrite N.eqb_refl in *. injection H as <- <-.
      repeat split; auto. unfold inner. lia.
    - destruct (N.ltb_spec (N.of_nat (length tbl)) v) as [E2|E2]; [|discriminate]. cbn [bind] in *.
      destruct (N.eqb_spec v 0) as [E3|E3]; [lia|].
      destruct (retrieveData r v) as [w| | |] eqn:Er; try discriminate. cbn [bind] in *. injection H as <- <-.
      split; [unfold inner; lia|]. split; [reflexivity|]. split; [right; split; [exact E2|eauto]|]. intros c'. reflexivity. }
  destruct NI as (NI & -> & Hrec & Hc). split; [assumption|]. split; [assumption|]. split; [reflexivity|]. split; [assumption|].
  intros ip' V' L' E'.
  destruct (canon_spec ip' V') as (Vc' & Ac' & Lc').
  assert (HV2 : is_v4 (addr ip') \/ aIPVersion (wMeta r) <> 4).
  { destruct Vc as [Vc|Vc]; [left; apply Lc'; congruence | right; auto]. }
  destruct (lookup_char r tbl R ip' V' HV2) as (v' & j' & Hj' & Rv' & St' & E2). cbv zeta in *.
  assert (Lb : length (bits (canon ip)) = length (bits (canon ip'))) by (rewrite !bits_length; congruence).
  assert (Ss : start r (canon ip') = start r (canon ip)) by (unfold start; now rewrite L').
  destruct (walk_same tbl (start r (canon ip)) (canon ip) (canon ip') j v j' v') as [-> ->];
    try assumption; try (rewrite bits_length; assumption); try lia.
  { now rewrite <- Ss. } { rewrite Lb. assumption. }
  unfold LookupNetwork. rewrite E2. apply Hc.
Qed.
(** The usual case: a network of the address's own family. *)
Definition own_family (c : bytes) : Prop := length c = 4%nat -> aIPVersion (wMeta r) = 6 -> wV4Depth r = 96%nat.
Lemma aw_cidr_wnet c j : valid_ip c -> (j <= 8 * length c)%nat -> own_family c -> aw_cidr r c j = wnet c j.
Proof.
  intros V Hj H. unfold aw_cidr, own_family in *.
  destruct (N.eqb_spec (aIPVersion (wMeta r)) 6) as [E|E]; cbn [andb]; [|now apply mask_wnet].
  destruct (Nat.eqb_spec (length c) 4) as [E2|E2]; cbn [andb]; [|now apply mask_wnet].
  rewrite H by assumption. cbn [Nat.eqb negb]. now apply mask_wnet.
Qed.
Lemma own_network ip net rec : valid_ip ip -> LookupNetwork r ip = Ok (net, rec) -> own_family (canon ip) ->
  exists b, net_is net b /\ aligned b /\ in_block b (addr ip) /\ length (nIP net) = length (canon ip) /\
    forall ip', valid_ip ip' -> (is_v4 (addr ip') <-> is_v4 (addr ip)) -> in_block b (addr ip') ->
      LookupNetwork r ip' = Ok (net, rec).
Proof.
  intros V H Hown. destruct (network_char ip net rec V H) as (v & j & Hj & Rv & NI & HV & -> & Hrec & Hall). cbv zeta in *.
  destruct (canon_spec ip V) as (Vc & Ac & Lc).
  rewrite aw_cidr_wnet by assumption.
  exists (mkBlock ((if (length (canon ip) =? 4)%nat then v4base else 0) + val (canon ip) / 2 ^ (8 * N.of_nat (length (canon ip)) - N.of_nat j) * 2 ^ (8 * N.of_nat (length (canon ip)) - N.of_nat j)) (8 * N.of_nat (length (canon ip)) - N.of_nat j)).
  split; [now apply wnet_is|]. split; [now apply wnet_aligned|]. split; [|split].
  - rewrite <- Ac, addr_val by assumption. now apply wnet_in.
  - unfold wnet. cbn [nIP]. apply be_enc_length.
  - intros ip' V' Hf Hin. destruct (canon_spec ip' V') as (Vc' & Ac' & Lc').
    assert (L : length (canon ip') = length (canon ip)).
    { destruct Vc as [Vc|Vc], Vc' as [Vc'|Vc']; try congruence; exfalso.
      - assert (is_v4 (addr ip')) by (apply Hf, Lc; assumption). apply Lc' in H0. congruence.
      - assert (is_v4 (addr ip)) by (apply Hf, Lc'; assumption). apply Lc in H0. congruence. }
    rewrite <- Ac', addr_val, L in Hin by assumption. apply wnet_in in Hin; [|congruence|assumption].
    rewrite (Hall ip' V' L Hin). rewrite aw_cidr_wnet; [|assumption|now rewrite L|unfold own_family in *; now rewrite L].
    do 2 f_equal. symmetry. apply wnet_same; congruence.
Qed.
End Lookup2.

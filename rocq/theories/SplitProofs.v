(** Splitting a range into CIDRs: lemmas for PrefixSameLength, SuffixZeroLength
    and Range.IPNets. *)
From Verif Require Import Base NetIP IpNet Spec IpNetProofs.
Open Scope N_scope.

(* ------------------------------------------------------------------ *)
(** * PrefixSameLength *)

Lemma lz_byte x y : x <> y ->
  let z := N.of_nat (leading_zeros8 (N.lxor (b2n y) (b2n x))) in
  z < 8 /\ b2n x / 2 ^ (8 - z) = b2n y / 2 ^ (8 - z) /\
  b2n x / 2 ^ (7 - z) <> b2n y / 2 ^ (7 - z).
Proof.
  intros Hne z.
  assert (byte_eqb x y ||
    ((z <? 8) && (b2n x / 2 ^ (8 - z) =? b2n y / 2 ^ (8 - z)) &&
     negb (b2n x / 2 ^ (7 - z) =? b2n y / 2 ^ (7 - z))) = true) as K.
  { unfold z. clear Hne z. revert x y. apply byte_forall2. vm_compute. reflexivity. }
  destruct (byte_eqb_spec x y) as [E|_]; [contradiction|]. cbn [orb] in K.
  destruct (z <? 8) eqn:E1; [|discriminate].
  destruct (N.eqb_spec (b2n x / 2 ^ (8 - z)) (b2n y / 2 ^ (8 - z))) as [E2|]; [|discriminate].
  destruct (N.eqb_spec (b2n x / 2 ^ (7 - z)) (b2n y / 2 ^ (7 - z))) as [|E3]; [discriminate|].
  split; [apply N.ltb_lt; assumption|]. auto.
Qed.

Lemma div_hi x n v j : v < 2 ^ n -> (x * 2 ^ n + v) / 2 ^ (j + n) = x / 2 ^ j.
Proof.
  intros H. rewrite (N.add_comm j n), N.pow_add_r.
  pose proof (pow_pos n). pose proof (pow_pos j).
  rewrite <- N.div_div by lia.
  rewrite N.add_comm, N.div_add, (N.div_small v) by lia. reflexivity.
Qed.
Lemma div_lo x n v j : j <= n -> (x * 2 ^ n + v) / 2 ^ j = x * 2 ^ (n - j) + v / 2 ^ j.
Proof.
  intros H. pose proof (pow_pos j).
  replace (2 ^ n) with (2 ^ (n - j) * 2 ^ j) by (rewrite <- N.pow_add_r; f_equal; lia).
  rewrite N.mul_assoc, N.add_comm, N.div_add by lia. lia.
Qed.

Lemma lxor_byte_0 x y : (N.lxor (b2n y) (b2n x) =? 0) = byte_eqb x y.
Proof.
  destruct (byte_eqb_spec x y) as [->|Hne]; [rewrite N.lxor_nilpotent; reflexivity|].
  apply N.eqb_neq. intros H. apply N.lxor_eq in H. apply Hne, b2n_inj. congruence.
Qed.

Lemma prefix_same_aux_spec a b : length a = length b ->
  let w := 8 * N.of_nat (length a) in
  let p := N.of_nat (prefix_same_aux a b) in
  p <= w /\ val a / 2 ^ (w - p) = val b / 2 ^ (w - p) /\
  (p < w -> val a / 2 ^ (w - p - 1) <> val b / 2 ^ (w - p - 1)).
Proof.
  revert b; induction a as [|x a IH]; intros [|y b] Hl; try discriminate.
  - cbn. split; [flia|]. split; [reflexivity|flia].
  - injection Hl as Hl. cbn [length prefix_same_aux val]. rewrite lxor_byte_0, <- Hl.
    pose proof (val_bound a) as Ba. pose proof (val_bound b) as Bb. rewrite <- Hl in Bb.
    destruct (byte_eqb_spec x y) as [->|Hne].
    + destruct (IH b Hl) as [H1 [H2 H3]]. cbv zeta.
      set (p := prefix_same_aux a b) in *. set (n := length a) in *.
      replace (8 * N.of_nat (S n) - N.of_nat (8 + p)) with (8 * N.of_nat n - N.of_nat p) by flia.
      split; [flia|]. split; [rewrite !div_lo by flia; rewrite H2; reflexivity|].
      intros Hlt. rewrite !div_lo by flia. intros E. apply H3; [flia|]. apply N.add_cancel_l in E. exact E.
    + destruct (lz_byte x y Hne) as [H1 [H2 H3]]. cbv zeta.
      set (z := leading_zeros8 (N.lxor (b2n y) (b2n x))) in *. set (n := length a) in *.
      split; [flia|].
      replace (8 * N.of_nat (S n) - N.of_nat z) with ((8 - N.of_nat z) + 8 * N.of_nat n) by flia.
      split; [rewrite !div_hi by assumption; assumption|]. intros _.
      replace (8 - N.of_nat z + 8 * N.of_nat n - 1) with ((7 - N.of_nat z) + 8 * N.of_nat n) by flia.
      rewrite !div_hi by assumption. assumption.
Qed.

(* ------------------------------------------------------------------ *)
(** * SuffixZeroLength *)

Lemma tz_byte b : b2n b <> 0 ->
  let z := N.of_nat (trailing_zeros (b2n b)) in
  z < 8 /\ b2n b mod 2 ^ z = 0 /\ b2n b mod 2 ^ (z + 1) <> 0.
Proof.
  intros Hne z.
  assert ((b2n b =? 0) || ((z <? 8) && (b2n b mod 2 ^ z =? 0) && negb (b2n b mod 2 ^ (z + 1) =? 0)) = true) as K.
  { unfold z. clear Hne z. revert b. apply byte_forall. vm_compute. reflexivity. }
  destruct (N.eqb_spec (b2n b) 0) as [E|_]; [contradiction|]. cbn [orb] in K.
  destruct (z <? 8) eqn:E1; [|discriminate].
  destruct (N.eqb_spec (b2n b mod 2 ^ z) 0) as [E2|]; [|discriminate].
  destruct (N.eqb_spec (b2n b mod 2 ^ (z + 1)) 0) as [|E3]; [discriminate|].
  split; [apply N.ltb_lt; assumption|]. auto.
Qed.

Lemma mod_lo x n v j : j <= n -> (x * 2 ^ n + v) mod 2 ^ j = v mod 2 ^ j.
Proof.
  intros H. pose proof (pow_pos j).
  replace (2 ^ n) with (2 ^ (n - j) * 2 ^ j) by (rewrite <- N.pow_add_r; f_equal; flia).
  rewrite N.mul_assoc, N.add_comm, N.mod_add by flia. reflexivity.
Qed.

Lemma suffix_zero_rev_spec l :
  let w := 8 * N.of_nat (length l) in
  let s := N.of_nat (suffix_zero_rev l) in
  s <= w /\ val (rev l) mod 2 ^ s = 0 /\ (s < w -> val (rev l) mod 2 ^ (s + 1) <> 0).
Proof.
  induction l as [|b l IH].
  - cbn. split; [flia|]. split; [reflexivity|flia].
  - cbn [suffix_zero_rev rev length]. rewrite val_app. cbn [length val].
    change (2 ^ (8 * N.of_nat 0)) with 1. change (8 * N.of_nat 1) with 8.
    rewrite N.mul_1_r, N.add_0_r. cbv zeta in *. destruct IH as [H1 [H2 H3]].
    set (s := suffix_zero_rev l) in *. set (v := val (rev l)) in *.
    destruct (N.eqb_spec (b2n b) 0) as [->|Hne].
    + rewrite N.add_0_r.
      assert (forall k, (v * 2 ^ 8) mod 2 ^ (k + 8) = (v mod 2 ^ k) * 2 ^ 8) as M.
      { intros k. rewrite N.pow_add_r. apply N.mul_mod_distr_r; apply N.pow_nonzero; discriminate. }
      replace (N.of_nat (8 + s)) with (N.of_nat s + 8) by flia.
      split; [flia|]. rewrite M, H2. split; [reflexivity|].
      intros Hlt. replace (N.of_nat s + 8 + 1) with ((N.of_nat s + 1) + 8) by flia. rewrite M.
      specialize (H3 ltac:(flia)). change (2 ^ 8) with 256. clear - H3. nia.
    + destruct (tz_byte b Hne) as [T1 [T2 T3]]. set (z := trailing_zeros (b2n b)) in *.
      split; [flia|]. rewrite !mod_lo by flia. auto.
Qed.

Lemma SuffixZeroLength_spec ip :
  let w := 8 * N.of_nat (length ip) in
  let s := N.of_nat (SuffixZeroLength ip) in
  s <= w /\ val ip mod 2 ^ s = 0 /\ (s < w -> val ip mod 2 ^ (s + 1) <> 0).
Proof.
  unfold SuffixZeroLength. pose proof (suffix_zero_rev_spec (rev ip)) as H.
  rewrite rev_involutive, rev_length in H. exact H.
Qed.

(* ------------------------------------------------------------------ *)
(** * One greedy step *)

(** The number of host bits IPNets picks at [start]. *)
Lemma mod_pow_le v i j : i <= j -> v mod 2 ^ j = 0 -> v mod 2 ^ i = 0.
Proof.
  intros Hij H. apply N.mod_divide; [apply N.pow_nonzero; discriminate|].
  apply N.mod_divide in H; [|apply N.pow_nonzero; discriminate].
  apply N.divide_trans with (2 ^ j); [|assumption].
  exists (2 ^ (j - i)). rewrite <- N.pow_add_r. f_equal. flia.
Qed.

(** s < e, same quotient at d, different quotient below: the aligned block of
    size 2^(d-1) at s fits below e. *)
Lemma fit s e d k : s < e -> s mod 2 ^ k = 0 -> k < d ->
  s / 2 ^ (d - 1) <> e / 2 ^ (d - 1) -> s + 2 ^ k <= e.
Proof.
  intros Hlt Hk Hkd Hne. pose proof (pow_pos (d - 1)) as P.
  assert (s / 2 ^ (d - 1) < e / 2 ^ (d - 1)) as L.
  { pose proof (N.div_le_mono s e (2 ^ (d - 1)) ltac:(alia) ltac:(alia)). alia. }
  assert (2 ^ (d - 1) = 2 ^ (d - 1 - k) * 2 ^ k) as E by (rewrite <- N.pow_add_r; f_equal; alia).
  pose proof (pow_pos k) as Pk. pose proof (pow_pos (d - 1 - k)) as Pj.
  set (Q := 2 ^ (d - 1)) in *. set (K := 2 ^ k) in *. set (J := 2 ^ (d - 1 - k)) in *.
  assert (s = K * (s / K)) as Es by (pose proof (N.div_mod s K); alia).
  set (m := s / K) in *.
  pose proof (N.mul_div_le e Q ltac:(alia)) as Le.
  pose proof (N.mul_succ_div_gt s Q ltac:(alia)) as Gs.
  set (qs := s / Q) in *. set (qe := e / Q) in *.
  assert (s < qe * J * K) as S1 by ania.
  assert (m < qe * J) as S2 by ania. ania.
Qed.

(** Two numbers with the same quotient by 2^d differ by less than 2^d from
    the block start, so no aligned block of size 2^d at s fits below e. *)
Lemma nofit s e d k : s / 2 ^ d = e / 2 ^ d -> d <= k -> s mod 2 ^ k = 0 -> e < s + 2 ^ k.
Proof.
  intros Heq Hdk Hk. pose proof (pow_pos d). pose proof (pow_pos k).
  assert (2 ^ k = 2 ^ (k - d) * 2 ^ d) as E by (rewrite <- N.pow_add_r; f_equal; alia).
  pose proof (mod_pow_le s d k Hdk Hk) as Hd.
  assert (s = 2 ^ d * (s / 2 ^ d)) as Es by (pose proof (N.div_mod s (2 ^ d)); alia).
  pose proof (N.mul_succ_div_gt e (2 ^ d) ltac:(alia)) as G. rewrite <- Heq in G.
  pose proof (pow_pos (k - d)). ania.
Qed.

(** [k] is the greedy choice at s for the remaining addresses s .. e-1. *)
Definition greedy (w s e k : N) : Prop :=
  k <= w /\ s mod 2 ^ k = 0 /\ s + 2 ^ k <= e /\
  (k < w -> s mod 2 ^ (k + 1) = 0 -> e < s + 2 ^ (k + 1)).

Lemma cidr_greedy start end_ :
  length start = length end_ -> (0 < length start)%nat ->
  val start <= val end_ ->
  let w := 8 * N.of_nat (length start) in
  (ipnets_cidr start end_ <= 8 * length start)%nat /\
  greedy w (val start) (val end_ + 1) (w - N.of_nat (ipnets_cidr start end_)).
Proof.
  intros Hl Hpos Hle w.
  pose proof (SuffixZeroLength_spec start) as [S1 [S2 S3]].
  pose proof (prefix_same_aux_spec start (NextIP end_)) as P.
  rewrite NextIP_length in P. specialize (P Hl). cbv zeta in *. destruct P as [P1 [P2 P3]].
  unfold ipnets_cidr, PrefixSameLength. rewrite NextIP_length, Hl, Nat.eqb_refl. rewrite <- Hl.
  fold w in S1, S3, P1, P2, P3.
  set (t := SuffixZeroLength start) in *. set (p := prefix_same_aux start (NextIP end_)) in *.
  set (n := length start) in *. set (s := val start) in *.
  assert (w = 8 * N.of_nat n) as Hw by reflexivity.
  pose proof (val_bound end_) as Be. rewrite <- Hl in Be. fold w in Be.
  set (W := 2 ^ w) in *.
  rewrite NextIP_val, <- Hl in P2, P3. fold n in P2, P3. fold w W in P2, P3. clearbody n.
  assert (W = 2 ^ w) as HW by reflexivity. clearbody w W.
  destruct (N.eq_dec (val end_ + 1) W) as [Ew|Ew].
  - (* the range ends at the all-ones address *)
    rewrite Ew, N.mod_same in P2, P3 by (rewrite HW; apply N.pow_nonzero; discriminate).
    rewrite Ew.
    destruct (N.eq_dec s 0) as [E0|E0].
    + assert (N.of_nat t = w) as Et.
      { destruct (N.lt_ge_cases (N.of_nat t) w) as [L|L]; [|alia].
        exfalso. apply S3; [assumption|]. rewrite E0. apply N.mod_0_l, N.pow_nonzero. discriminate. }
      assert (N.of_nat p = w) as Ep.
      { destruct (N.lt_ge_cases (N.of_nat p) w) as [L|L]; [|alia].
        exfalso. apply P3; [assumption|]. rewrite E0. reflexivity. }
      replace (n * 8 <? p + 1)%nat with true by alia.
      replace (n * 8 - t <? 0)%nat with false by alia.
      split; [alia|]. replace (w - N.of_nat (n * 8 - t)) with w by alia.
      rewrite E0. unfold greedy. split; [alia|]. rewrite <- HW. split; [apply N.mod_0_l; rewrite HW; apply N.pow_nonzero; discriminate|].
      split; [alia|]. alia.
    + assert (N.of_nat t < w) as Et.
      { destruct (N.lt_ge_cases (N.of_nat t) w) as [L|L]; [assumption|exfalso].
        replace (N.of_nat t) with w in S2 by alia. rewrite <- HW in S2.
        rewrite N.mod_small in S2 by alia. contradiction. }
      assert (N.of_nat t + 1 <= w - N.of_nat p) as Etp.
      { destruct (N.lt_ge_cases (N.of_nat t) (w - N.of_nat p)) as [L|L]; [alia|exfalso].
        rewrite N.div_0_l in P2 by (apply N.pow_nonzero; discriminate).
        apply N.div_small_iff in P2; [|apply N.pow_nonzero; discriminate].
        pose proof (mod_pow_le s _ _ L S2) as M. rewrite N.mod_small in M by assumption. contradiction. }
      replace (n * 8 <? p + 1)%nat with false by alia.
      assert ((if (n * 8 - t <? p + 1)%nat then (p + 1)%nat else (n * 8 - t)%nat) = (n * 8 - t)%nat) as ->.
      { destruct (Nat.ltb_spec (n * 8 - t) (p + 1)); alia. }
      split; [alia|]. replace (w - N.of_nat (n * 8 - t)) with (N.of_nat t) by alia.
      unfold greedy. split; [alia|]. split; [assumption|].
      split.
      * (* s is a multiple of 2^t below W *)
        assert (W = 2 ^ (w - N.of_nat t) * 2 ^ N.of_nat t) as E by (rewrite HW, <- N.pow_add_r; f_equal; alia).
        pose proof (pow_pos (N.of_nat t)). pose proof (N.div_mod s (2 ^ N.of_nat t) ltac:(alia)).
        set (T := 2 ^ N.of_nat t) in *. set (m := s / T) in *. set (J := 2 ^ (w - N.of_nat t)) in *.
        assert (s < W) as HsW by alia. rewrite S2, N.add_0_r in H0. clearbody J m T.
        rewrite E in HsW |- *. rewrite H0 in HsW |- *. clear - HsW H.
        assert (m < J) by nia. nia.
      * intros _ M. exfalso. apply S3; assumption.
  - rewrite N.mod_small in P2, P3 by alia.
    set (e := val end_ + 1) in *. assert (s < e) as Hse by (unfold e; alia).
    assert (N.of_nat p < w) as Hp.
    { destruct (N.lt_ge_cases (N.of_nat p) w) as [L|L]; [assumption|exfalso].
      replace (w - N.of_nat p) with 0 in P2 by alia. rewrite !N.div_1_r in P2. alia. }
    specialize (P3 Hp).
    replace (n * 8 <? p + 1)%nat with false by alia.
    set (c := (if (n * 8 - t <? p + 1)%nat then (p + 1)%nat else (n * 8 - t)%nat)).
    assert (c = Nat.max (n * 8 - t) (p + 1)) as Hc.
    { unfold c. destruct (Nat.ltb_spec (n * 8 - t) (p + 1)); alia. }
    clearbody c. split; [alia|]. unfold greedy.
    assert (w - N.of_nat c <= N.of_nat t) as Hkt by alia.
    pose proof (mod_pow_le s _ _ Hkt S2) as M.
    split; [alia|]. split; [assumption|].
    split; [apply (fit s e (w - N.of_nat p)); alia || assumption|].
    intros Hk M1. destruct (N.eq_dec (w - N.of_nat c) (N.of_nat t)) as [Et|Et].
    + exfalso. apply S3; [alia|]. rewrite <- Et. assumption.
    + apply (nofit s e (w - N.of_nat p)); [assumption|alia|assumption].
Qed.

(* ------------------------------------------------------------------ *)
(** * The whole greedy split *)

Inductive gsplit (w e : N) : N -> list block -> Prop :=
| gs_last s k : greedy w s e k -> s + 2 ^ k = e -> gsplit w e s [mkBlock s k]
| gs_step s k bs : greedy w s e k -> s + 2 ^ k < e -> gsplit w e (s + 2 ^ k) bs ->
    gsplit w e s (mkBlock s k :: bs).

Lemma greedy_unique w s e k1 k2 : greedy w s e k1 -> greedy w s e k2 -> k1 = k2.
Proof.
  assert (forall a b, greedy w s e a -> greedy w s e b -> a < b -> False) as A.
  { intros a b [A1 [A2 [A3 A4]]] [B1 [B2 [B3 B4]]] L.
    assert (s mod 2 ^ (a + 1) = 0) as M by (apply (mod_pow_le s (a + 1) b); [lia|assumption]).
    specialize (A4 ltac:(flia) M).
    pose proof (N.pow_le_mono_r 2 (a + 1) b ltac:(lia) ltac:(lia)). alia. }
  intros H1 H2. destruct (N.lt_total k1 k2) as [L|[L|L]]; [exfalso|assumption|exfalso]; eauto.
Qed.

Lemma greedy_exists s e : s < e -> e <= 2 ^ 128 -> exists k, greedy 128 s e k.
Proof.
  intros H1 H2.
  assert (val (be_enc 16 s) = s) as Es.
  { rewrite val_be_enc. apply N.mod_small. change (8 * N.of_nat 16) with 128. alia. }
  assert (val (be_enc 16 (e - 1)) = e - 1) as Ee.
  { rewrite val_be_enc. apply N.mod_small. change (8 * N.of_nat 16) with 128. alia. }
  destruct (cidr_greedy (be_enc 16 s) (be_enc 16 (e - 1))) as [_ G].
  - rewrite !be_enc_length. reflexivity.
  - rewrite be_enc_length. lia.
  - rewrite Es, Ee. lia.
  - rewrite Es, Ee, be_enc_length in G. change (8 * N.of_nat 16) with 128 in G.
    replace (e - 1 + 1) with e in G by lia. eauto.
Qed.

Lemma mod_add_pow s k : s mod 2 ^ k = 0 -> (s + 2 ^ k) mod 2 ^ k = 0.
Proof.
  intros H. pose proof (pow_pos k).
  replace (s + 2 ^ k) with (s + 1 * 2 ^ k) by lia. rewrite N.mod_add by lia. assumption.
Qed.

Lemma mod_add_pow_odd s k : s mod 2 ^ k = 0 -> s mod 2 ^ (k + 1) <> 0 -> (s + 2 ^ k) mod 2 ^ (k + 1) = 0.
Proof.
  intros H Hn. pose proof (pow_pos k).
  assert (2 ^ (k + 1) = 2 * 2 ^ k) as E by (rewrite N.pow_add_r; change (2 ^ 1) with 2; lia).
  rewrite E in *. apply N.mod_divide in H; [|lia]. destruct H as [m Hm].
  assert (m mod 2 = 1) as Hm1.
  { destruct (N.eq_dec (m mod 2) 0) as [Z|Z]; [exfalso|lia].
    apply Hn. rewrite Hm. rewrite N.mul_mod_distr_r by lia. rewrite Z. reflexivity. }
  rewrite Hm. replace (m * 2 ^ k + 2 ^ k) with ((m + 1) * 2 ^ k) by lia.
  rewrite N.mul_mod_distr_r by lia. replace ((m + 1) mod 2) with 0 by lia. reflexivity.
Qed.

Lemma phase2 (j : nat) s e :
  s < e -> e <= 2 ^ 128 -> e < s + 2 ^ N.of_nat j -> s mod 2 ^ N.of_nat j = 0 ->
  exists bs, gsplit 128 e s bs /\ (length bs <= j)%nat.
Proof.
  revert s. induction (lt_wf j) as [j _ IH]. intros s Hs He Hlt Hm.
  destruct (greedy_exists s e Hs He) as [k G]. pose proof G as [G1 [G2 [G3 G4]]].
  assert (k < N.of_nat j) as Hk.
  { destruct (N.lt_ge_cases k (N.of_nat j)) as [L|L]; [assumption|exfalso].
    pose proof (N.pow_le_mono_r 2 _ _ ltac:(lia) L). alia. }
  assert (s mod 2 ^ (k + 1) = 0) as M by (apply (mod_pow_le s (k + 1) (N.of_nat j)); [flia|assumption]).
  destruct (N.eq_dec (s + 2 ^ k) e) as [E|E].
  - exists [mkBlock s k]. split; [constructor; assumption|cbn [length]; flia].
  - assert (k < 128) as Hk'.
    { destruct (N.lt_ge_cases k 128) as [L|L]; [assumption|exfalso].
      pose proof (N.pow_le_mono_r 2 _ _ ltac:(lia) L). alia. }
    specialize (G4 Hk' M).
    assert (2 ^ (k + 1) = 2 ^ k + 2 ^ k) as D by (rewrite N.pow_add_r; change (2 ^ 1) with 2; lia).
    destruct (IH (N.to_nat k) ltac:(flia) (s + 2 ^ k)) as [bs [B1 B2]].
    + alia.
    + assumption.
    + rewrite N2Nat.id. alia.
    + rewrite N2Nat.id. apply mod_add_pow. assumption.
    + exists (mkBlock s k :: bs). split; [constructor; [assumption|alia|assumption]|cbn [length]; flia].
Qed.

Lemma phase1 (m : nat) s e :
  s < e -> e <= 2 ^ 128 -> (m <= 128)%nat -> s mod 2 ^ (128 - N.of_nat m) = 0 ->
  exists bs, gsplit 128 e s bs /\ (length bs <= m + 128)%nat.
Proof.
  revert s. induction (lt_wf m) as [m _ IH]. intros s Hs He Hm128 Hm.
  destruct (greedy_exists s e Hs He) as [k G]. pose proof G as [G1 [G2 [G3 G4]]].
  destruct (N.eq_dec (s + 2 ^ k) e) as [E|E].
  { exists [mkBlock s k]. split; [constructor; assumption|cbn [length]; flia]. }
  assert (k < 128) as Hk'.
  { destruct (N.lt_ge_cases k 128) as [L|L]; [assumption|exfalso].
    pose proof (N.pow_le_mono_r 2 _ _ ltac:(lia) L). alia. }
  destruct (N.eq_dec (s mod 2 ^ (k + 1)) 0) as [Z|Z].
  - specialize (G4 Hk' Z). destruct (phase2 (S (N.to_nat k)) s e) as [bs [B1 B2]]; try assumption.
    + replace (N.of_nat (S (N.to_nat k))) with (k + 1) by flia. assumption.
    + replace (N.of_nat (S (N.to_nat k))) with (k + 1) by flia. assumption.
    + exists bs. split; [assumption|flia].
  - assert (128 - N.of_nat m < k + 1) as Hj.
    { destruct (N.lt_ge_cases (128 - N.of_nat m) (k + 1)) as [L|L]; [assumption|exfalso].
      apply Z. apply (mod_pow_le s _ _ L Hm). }
    pose proof (mod_add_pow_odd s k G2 Z) as M.
    destruct (IH (128 - N.to_nat (k + 1))%nat ltac:(flia) (s + 2 ^ k)) as [bs [B1 B2]].
    + alia.
    + assumption.
    + flia.
    + replace (128 - N.of_nat (128 - N.to_nat (k + 1))) with (k + 1) by flia. assumption.
    + exists (mkBlock s k :: bs). split; [constructor; [assumption|alia|assumption]|cbn [length]; flia].
Qed.

Lemma gsplit_exists s e : s < e -> e <= 2 ^ 128 ->
  exists bs, gsplit 128 e s bs /\ (length bs <= 256)%nat.
Proof.
  intros H1 H2. destruct (phase1 128 s e H1 H2) as [bs [B1 B2]]; [lia| |exists bs; auto].
  change (128 - N.of_nat 128) with 0. change (2 ^ 0) with 1. apply N.mod_1_r.
Qed.

Lemma gsplit_tiles w e s bs : gsplit w e s bs -> tiles s bs e.
Proof.
  induction 1 as [s k [G1 [G2 G3]] E|s k bs [G1 [G2 G3]] L _ IH]; cbn; repeat split; auto.
Qed.

(* ------------------------------------------------------------------ *)
(** * The loop computes the greedy split *)

Lemma mask_net_is start c : length start = 16%nat -> (c <= 128)%nat ->
  net_is (mkNet start (CIDRMask (Z.of_nat c) 128)) (mkBlock (val start) (128 - N.of_nat c)).
Proof.
  intros Hl Hc.
  assert (CIDRMask (Z.of_nat c) 128 = mask_bytes 16 c) as ->.
  { change 128%Z with (Z.of_nat 16 * 8)%Z. rewrite CIDRMask_ok by lia. reflexivity. }
  constructor; cbn [nIP nMask logsz base].
  - right. assumption.
  - rewrite mask_bytes_length. lia.
  - rewrite Hl. lia.
  - rewrite mask_bytes_val by lia. rewrite Hl. reflexivity.
  - symmetry. apply addr_16. assumption.
Qed.

Lemma ipnets_loop_gsplit end_ s bs : length end_ = 16%nat ->
  gsplit 128 (val end_ + 1) s bs ->
  forall fuel start, (length bs <= fuel)%nat -> length start = 16%nat -> val start = s ->
  exists nets, ipnets_loop fuel start end_ = Ok nets /\ Forall2 net_is nets bs.
Proof.
  intros He. induction 1 as [s k G E|s k bs G L _ IH]; intros fuel start Hf Hl Hv.
  - destruct fuel as [|fuel]; [cbn in Hf; lia|]. cbn [ipnets_loop]. rewrite Hl.
    destruct (cidr_greedy start end_) as [C1 C2]; [congruence|lia|pose proof (pow_pos k); alia|].
    rewrite Hl in C1, C2. change (8 * N.of_nat 16) with 128 in C2. rewrite Hv in C2.
    pose proof (greedy_unique _ _ _ _ _ C2 G) as Ek.
    change (Z.of_nat 16 * 8)%Z with 128%Z.
    pose proof (mask_net_is start (ipnets_cidr start end_) Hl ltac:(lia)) as Hn.
    rewrite Ek, Hv in Hn. destruct (LastIP_spec _ _ Hn) as [last [E1 [E2 E3]]].
    rewrite E1. cbn [bind]. cbn [nIP logsz] in E2, E3. rewrite Hv in E3. rewrite Hl in E2.
    assert (val last = s + 2 ^ k - 1) as Vl.
    { rewrite E3. destruct G as [_ [G _]]. pose proof (N.div_mod s (2 ^ k) ltac:(pose proof (pow_pos k); lia)) as D.
      rewrite G in D. rewrite N.mul_add_distr_r. rewrite (N.mul_comm (s / 2 ^ k)). rewrite N.add_0_r in D. rewrite <- D. lia. }
    rewrite IPLess_addr, !addr_16 by (try right; assumption).
    replace (val last <? val end_) with false by alia. cbn [negb].
    eexists. split; [reflexivity|]. constructor; [assumption|constructor].
  - destruct fuel as [|fuel]; [cbn in Hf; lia|]. cbn [ipnets_loop]. rewrite Hl.
    destruct (cidr_greedy start end_) as [C1 C2]; [congruence|lia|pose proof (pow_pos k); alia|].
    rewrite Hl in C1, C2. change (8 * N.of_nat 16) with 128 in C2. rewrite Hv in C2.
    pose proof (greedy_unique _ _ _ _ _ C2 G) as Ek.
    change (Z.of_nat 16 * 8)%Z with 128%Z.
    pose proof (mask_net_is start (ipnets_cidr start end_) Hl ltac:(lia)) as Hn.
    rewrite Ek, Hv in Hn. destruct (LastIP_spec _ _ Hn) as [last [E1 [E2 E3]]].
    rewrite E1. cbn [bind]. cbn [nIP logsz] in E2, E3. rewrite Hv in E3. rewrite Hl in E2.
    pose proof (pow_pos k) as Pk.
    assert (val last = s + 2 ^ k - 1) as Vl.
    { rewrite E3. destruct G as [_ [G _]]. pose proof (N.div_mod s (2 ^ k) ltac:(lia)) as D.
      rewrite G in D. rewrite N.mul_add_distr_r. rewrite (N.mul_comm (s / 2 ^ k)). rewrite N.add_0_r in D. rewrite <- D. lia. }
    rewrite IPLess_addr, !addr_16 by (try right; assumption).
    replace (val last <? val end_) with true by alia. cbn [negb].
    destruct (IH fuel (NextIP last)) as [nets [N1 N2]].
    + cbn [length] in Hf. lia.
    + rewrite NextIP_length. assumption.
    + rewrite NextIP_val, E2. change (8 * N.of_nat 16) with 128.
      pose proof (val_bound end_) as B. rewrite He in B. change (8 * N.of_nat 16) with 128 in B.
      rewrite Vl. rewrite N.mod_small by alia. alia.
    + rewrite N1. cbn [bind]. eexists. split; [reflexivity|]. constructor; assumption.
Qed.

Lemma IPNets_gsplit r : valid_ip (rStart r) -> valid_ip (rEnd r) -> addr (rStart r) <= addr (rEnd r) ->
  exists nets bs, IPNets r = Ok nets /\ Forall2 net_is nets bs /\
    gsplit 128 (addr (rEnd r) + 1) (addr (rStart r)) bs /\
    (length bs <= 256)%nat.
Proof.
  intros V1 V2 Hle. pose proof (addr_bound _ V2) as B.
  destruct (gsplit_exists (addr (rStart r)) (addr (rEnd r) + 1)) as [bs [G L]]; [lia|alia|].
  pose proof (to16_length _ V2) as L2.
  unfold IPNets.
  destruct (ipnets_loop_gsplit (to16 (rEnd r)) (addr (rStart r)) bs L2) with (fuel := 257%nat) (start := to16 (rStart r))
    as [nets [N1 N2]].
  - rewrite to16_val by assumption. assumption.
  - lia.
  - apply to16_length. assumption.
  - apply to16_val. assumption.
  - exists nets, bs. auto.
Qed.

(** More fuel never changes a finished run. *)
Lemma ipnets_fuel_mono fuel fuel' start end_ nets : (fuel <= fuel')%nat ->
  ipnets_loop fuel start end_ = Ok nets -> ipnets_loop fuel' start end_ = Ok nets.
Proof.
  revert fuel' start nets; induction fuel as [|fuel IH]; intros [|fuel'] start nets Hf H; try lia; try discriminate.
  cbn [ipnets_loop] in *. destruct (LastIP _) as [last| | |]; cbn [bind] in *; try discriminate.
  destruct (negb _); [assumption|].
  destruct (ipnets_loop fuel (NextIP last) end_) as [rest| | |] eqn:E; cbn [bind] in *; try discriminate.
  rewrite (IH fuel' _ _ ltac:(lia) E). assumption.
Qed.

(* ------------------------------------------------------------------ *)
(** * Minimality *)

Lemma aligned_multiple b : aligned b -> exists m, base b = m * 2 ^ logsz b.
Proof.
  intros H. unfold aligned in H. apply N.mod_divide in H; [|apply N.pow_nonzero; discriminate].
  destruct H as [m Hm]. exists m. assumption.
Qed.

(** Dyadic blocks are nested or disjoint. *)
Lemma dyadic a b x : aligned a -> aligned b -> in_block a x -> in_block b x -> logsz a <= logsz b ->
  base b <= base a /\ base a + 2 ^ logsz a <= base b + 2 ^ logsz b.
Proof.
  intros Ha Hb Ia Ib Hle.
  destruct (aligned_multiple a Ha) as [m Em]. destruct (aligned_multiple b Hb) as [n En].
  unfold in_block in *. rewrite Em, En in *.
  assert (2 ^ logsz b = 2 ^ (logsz b - logsz a) * 2 ^ logsz a) as E by (rewrite <- N.pow_add_r; f_equal; flia).
  pose proof (pow_pos (logsz a)) as P. rewrite E in *. clear Hle E Ha Hb Em En.
  set (A := 2 ^ logsz a) in *. set (D := 2 ^ (logsz b - logsz a)) in *. clearbody A D.
  assert (n * D <= m) by nia. assert (m < n * D + D) by nia. split; nia.
Qed.

Lemma filter_length_lt {A} (f : A -> bool) l x : In x l -> f x = false -> (length (filter f l) < length l)%nat.
Proof.
  induction l as [|a l IH]; cbn; intros Hin Hx; [contradiction|].
  assert (length (filter f l) <= length l)%nat as L.
  { clear. induction l as [|a l IH]; cbn; [lia|]. destruct (f a); cbn; lia. }
  destruct Hin as [->|Hin]; [rewrite Hx; lia|].
  specialize (IH Hin Hx). destruct (f a); cbn; lia.
Qed.

Lemma gsplit_min w e s bs : gsplit w e s bs -> e <= 2 ^ w ->
  forall cs, covers cs s e -> (length bs <= length cs)%nat.
Proof.
  intros H He. induction H as [s k G E|s k bs G L _ IH]; intros cs [Ca Cc].
  - destruct cs as [|c cs]; cbn [length]; [exfalso|lia].
    destruct (proj2 (Cc s)) as [b [[] _]]. pose proof (pow_pos k). split; alia.
  - pose proof (pow_pos k) as Pk. destruct G as [G1 [G2 [G3 G4]]].
    set (f := fun c => s + 2 ^ k <=? base c).
    (* a covering block that meets the first greedy block lies inside it *)
    assert (forall c x, In c cs -> in_block c x -> x < s + 2 ^ k -> base c + 2 ^ logsz c <= s + 2 ^ k) as Inside.
    { intros c x Hc Hx Hlt.
      assert (aligned c) as Al by (rewrite Forall_forall in Ca; apply Ca; assumption).
      pose proof (pow_pos (logsz c)) as Pc.
      assert (s <= base c) as Hb by (apply (proj1 (Cc (base c))); exists c; split; [assumption|split; alia]).
      assert (base c + 2 ^ logsz c <= e) as Hend.
      { assert (base c + 2 ^ logsz c - 1 < e); [|alia].
        apply (proj1 (Cc (base c + 2 ^ logsz c - 1))). exists c; split; [assumption|split; alia]. }
      assert (in_block (mkBlock s k) x) as Ix by (destruct Hx; split; cbn; alia).
      assert (aligned (mkBlock s k)) as As by assumption.
      destruct (N.lt_ge_cases k (logsz c)) as [J|J].
      - exfalso.
        destruct (dyadic (mkBlock s k) c x As Al Ix Hx) as [D1 D2]; [cbn; flia|]. cbn [base logsz] in *.
        assert (base c = s) as Eb by alia.
        unfold aligned in Al. rewrite Eb in *.
        pose proof (N.pow_le_mono_r 2 (k + 1) (logsz c) ltac:(lia) ltac:(flia)) as Pm.
        assert (s mod 2 ^ (k + 1) = 0) as M by (apply (mod_pow_le s _ (logsz c)); [flia|assumption]).
        assert (k < w) as Kw.
        { destruct (N.lt_ge_cases k w) as [Q|Q]; [assumption|exfalso].
          pose proof (N.pow_le_mono_r 2 _ _ ltac:(lia) Q). 
          alia. }
        specialize (G4 Kw M). alia.
      - destruct (dyadic c (mkBlock s k) x Al As Hx Ix) as [D1 D2]; [cbn; flia|]. exact D2. }
    assert (covers (filter f cs) (s + 2 ^ k) e) as Cf.
    { split.
      - rewrite Forall_forall in *. intros c Hc. apply filter_In in Hc. apply Ca. tauto.
      - intros a. split.
        + intros [c [Hc Ha]]. apply filter_In in Hc as [Hc Hf]. unfold f in Hf.
          assert (s <= a < e) by (apply Cc; eauto). destruct Ha. apply N.leb_le in Hf. alia.
        + intros Ha. destruct (proj2 (Cc a)) as [c [Hc Hin]]; [alia|].
          exists c. split; [|assumption]. apply filter_In. split; [assumption|].
          unfold f. apply N.leb_le.
          destruct (N.lt_ge_cases (base c) (s + 2 ^ k)) as [Q|Q]; [exfalso|assumption].
          pose proof (pow_pos (logsz c)).
          assert (base c + 2 ^ logsz c <= s + 2 ^ k) as In1.
          { apply (Inside c (base c)); [assumption|split; alia|assumption]. }
          destruct Hin. alia. }
    specialize (IH _ Cf).
    destruct (proj2 (Cc s)) as [c [Hc Hin]]; [alia|].
    assert (length (filter f cs) < length cs)%nat; [|cbn [length]; lia].
    apply (filter_length_lt f cs c); [assumption|].
    unfold f. apply N.leb_gt. destruct Hin. alia.
Qed.

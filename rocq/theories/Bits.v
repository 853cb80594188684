(** Bit strings of addresses: most significant bit first. *)
From Verif Require Import Base NetIP IpNet Spec IpNetProofs SplitProofs IpNetProofs2 Ipdb.
Open Scope N_scope.

(** The low [w] bits of [v], most significant first. *)
Fixpoint nbits (w : nat) (v : N) : list bool :=
  match w with
  | O => []
  | S k => N.testbit v (N.of_nat k) :: nbits k v
  end.

(** The bits of a byte string. *)
Fixpoint bits (l : bytes) : list bool :=
  match l with
  | [] => []
  | b :: r => nbits 8 (b2n b) ++ bits r
  end.

Lemma nbits_length w v : length (nbits w v) = w.
Proof. induction w as [|w IH]; cbn; congruence. Qed.

Lemma nbits_nth w v i : (i < w)%nat -> nth_error (nbits w v) i = Some (N.testbit v (N.of_nat (w - 1 - i))).
Proof.
  revert i; induction w as [|w IH]; intros i H; [lia|].
  destruct i as [|i]; cbn [nbits nth_error].
  - do 2 f_equal. lia.
  - rewrite IH by lia. do 3 f_equal. lia.
Qed.

Lemma nth_error_ext {A} (l m : list A) : (forall i, nth_error l i = nth_error m i) -> l = m.
Proof.
  revert m; induction l as [|a l IH]; intros [|b m] H; [reflexivity|specialize (H O); discriminate..|].
  pose proof (H O) as H0. injection H0 as ->. f_equal. apply IH. intros i. exact (H (S i)).
Qed.

Lemma nbits_app a b v u : u < 2 ^ N.of_nat b -> nbits a v ++ nbits b u = nbits (a + b) (v * 2 ^ N.of_nat b + u).
Proof.
  intros Hu. apply nth_error_ext. intros i.
  assert (forall k, N.testbit (v * 2 ^ N.of_nat b + u) (N.of_nat k) =
     if (k <? b)%nat then N.testbit u (N.of_nat k) else N.testbit v (N.of_nat (k - b))) as T.
  { intros k. destruct (Nat.ltb_spec k b) as [L|L].
    - rewrite <- (N.mod_pow2_bits_low (v * 2 ^ N.of_nat b + u) (N.of_nat b)) by lia.
      rewrite N.add_comm, N.mod_add, N.mod_small by (assumption || apply N.pow_nonzero; discriminate). reflexivity.
    - replace (N.of_nat k) with (N.of_nat (k - b) + N.of_nat b) by lia.
      rewrite <- N.div_pow2_bits. rewrite N.div_add_l by (apply N.pow_nonzero; discriminate).
      rewrite N.div_small by assumption. rewrite N.add_0_r. reflexivity. }
  destruct (Nat.lt_ge_cases i (a + b)) as [L|L].
  - rewrite nbits_nth by assumption. rewrite T.
    destruct (Nat.lt_ge_cases i a) as [L2|L2].
    + rewrite nth_error_app1 by (rewrite nbits_length; assumption). rewrite nbits_nth by assumption.
      replace (a + b - 1 - i <? b)%nat with false by lia. do 3 f_equal. lia.
    + rewrite nth_error_app2 by (rewrite nbits_length; assumption). rewrite nbits_length, nbits_nth by lia.
      replace (a + b - 1 - i <? b)%nat with true by lia. do 3 f_equal. lia.
  - rewrite (proj2 (nth_error_None _ _)) by (rewrite app_length, !nbits_length; assumption).
    rewrite (proj2 (nth_error_None _ _)) by (rewrite nbits_length; assumption). reflexivity.
Qed.

Lemma bits_nbits l : bits l = nbits (8 * length l) (val l).
Proof.
  induction l as [|b r IH]; [reflexivity|].
  cbn [bits length val]. rewrite IH. rewrite nbits_app.
  - f_equal; [lia|]. f_equal. f_equal. f_equal. lia.
  - pose proof (val_bound r). replace (N.of_nat (8 * length r)) with (8 * N.of_nat (length r)) by lia. assumption.
Qed.

Lemma bits_length l : length (bits l) = (8 * length l)%nat.
Proof. rewrite bits_nbits, nbits_length. reflexivity. Qed.

Lemma bits_app a b : bits (a ++ b) = bits a ++ bits b.
Proof. induction a as [|x a IH]; [reflexivity|]. cbn [app bits]. rewrite IH, app_assoc. reflexivity. Qed.

Lemma firstn_nbits w k v : (k <= w)%nat -> firstn k (nbits w v) = nbits k (v / 2 ^ N.of_nat (w - k)).
Proof.
  intros H. apply nth_error_ext. intros i. destruct (Nat.lt_ge_cases i k) as [L|L].
  - rewrite nbits_nth by assumption.
    assert (nth_error (firstn k (nbits w v)) i = nth_error (nbits w v) i) as ->.
    { rewrite <- (firstn_skipn k (nbits w v)) at 2. rewrite nth_error_app1; [reflexivity|].
      rewrite firstn_length, nbits_length. lia. }
    rewrite nbits_nth by lia. rewrite N.div_pow2_bits. do 2 f_equal. lia.
  - rewrite (proj2 (nth_error_None _ _)) by (rewrite firstn_length, nbits_length; lia).
    rewrite (proj2 (nth_error_None _ _)) by (rewrite nbits_length; lia). reflexivity.
Qed.

Lemma nbits_inj w u v : u < 2 ^ N.of_nat w -> v < 2 ^ N.of_nat w -> nbits w u = nbits w v -> u = v.
Proof.
  intros Hu Hv H. apply N.bits_inj. intros n.
  destruct (N.lt_ge_cases n (N.of_nat w)) as [L|L].
  - assert (nth_error (nbits w u) (w - 1 - N.to_nat n) = nth_error (nbits w v) (w - 1 - N.to_nat n)) as E by congruence.
    rewrite !nbits_nth in E by lia. injection E as E.
    replace (N.of_nat (w - 1 - (w - 1 - N.to_nat n))) with n in E by lia. assumption.
  - assert (forall x, x < 2 ^ N.of_nat w -> N.testbit x n = false) as B.
    { intros x Hx. rewrite <- (N.mod_small x (2 ^ N.of_nat w)) by assumption. apply N.mod_pow2_bits_high. assumption. }
    rewrite !B by assumption. reflexivity.
Qed.

(** Same leading k bits = same quotient. *)
Lemma firstn_bits_eq a b k : length a = length b -> (k <= 8 * length a)%nat ->
  (firstn k (bits a) = firstn k (bits b) <->
   val a / 2 ^ N.of_nat (8 * length a - k) = val b / 2 ^ N.of_nat (8 * length a - k)).
Proof.
  intros L Hk. rewrite !bits_nbits, <- L. rewrite !firstn_nbits by assumption.
  assert (forall x, x < 2 ^ (8 * N.of_nat (length a)) -> x / 2 ^ N.of_nat (8 * length a - k) < 2 ^ N.of_nat k) as B.
  { intros x Hx. apply N.div_lt_upper_bound; [apply N.pow_nonzero; discriminate|].
    rewrite <- N.pow_add_r. replace (N.of_nat (8 * length a - k) + N.of_nat k) with (8 * N.of_nat (length a)) by lia. assumption. }
  split; [|congruence]. apply nbits_inj; apply B; [apply val_bound|rewrite L; apply val_bound].
Qed.

(* ---------- the code's bit extraction ---------- *)
Lemma byte_bits_nth b i : (i < 8)%nat ->
  nth_error (nbits 8 (b2n b)) i = Some (N.odd (N.shiftr (N.land 255 (b2n b)) (N.of_nat (7 - i)))).
Proof.
  intros H. rewrite nbits_nth by assumption. f_equal.
  rewrite <- N.bit0_odd, N.shiftr_spec by lia. rewrite N.add_0_l, N.land_spec.
  replace (8 - 1 - i)%nat with (7 - i)%nat by lia.
  assert (N.testbit 255 (N.of_nat (7 - i)) = true) as ->; [|reflexivity].
  do 8 (destruct i as [|i]; [reflexivity|]). lia.
Qed.

Lemma ip_bit_bits ip i :
  ip_bit ip i = match nth_error (bits ip) i with Some b => Ok b | None => Panic end.
Proof.
  unfold ip_bit, idx. revert i; induction ip as [|x r IH]; intros i.
  - cbn [bits]. rewrite !(proj2 (nth_error_None _ _)) by (cbn; lia). reflexivity.
  - cbn [bits]. destruct (Nat.lt_ge_cases i 8) as [L|L].
    + rewrite Nat.div_small, Nat.mod_small by assumption. cbn [nth_error bind].
      rewrite nth_error_app1 by (rewrite nbits_length; assumption).
      rewrite byte_bits_nth by assumption. reflexivity.
    + rewrite nth_error_app2 by (rewrite nbits_length; assumption). rewrite nbits_length.
      specialize (IH (i - 8)%nat).
      replace (i / 8)%nat with (S ((i - 8) / 8)) by lia. replace (i mod 8)%nat with ((i - 8) mod 8)%nat by lia.
      exact IH.
Qed.

Lemma ip_bit_ok ip i b r : skipn i (bits ip) = b :: r -> ip_bit ip i = Ok b.
Proof.
  intros H. rewrite ip_bit_bits. rewrite <- (firstn_skipn i (bits ip)).
  assert (i < length (bits ip))%nat as L.
  { destruct (Nat.lt_ge_cases i (length (bits ip))) as [L|L]; [assumption|].
    rewrite skipn_all2 in H by assumption. discriminate. }
  rewrite nth_error_app2 by (rewrite firstn_length; lia). rewrite firstn_length, H.
  replace (i - Nat.min i (length (bits ip)))%nat with O by lia. reflexivity.
Qed.

(* ---------- paths of blocks ---------- *)
(** The 128-bit form of an address number. *)
Definition abits (a : N) : list bool := nbits 128 a.
(** The leading bits that make up a block. *)
Definition path (b : block) : list bool := firstn (128 - N.to_nat (logsz b)) (abits (base b)).

Lemma abits_ip ip : length ip = 16%nat -> bits ip = abits (addr ip).
Proof. intros H. rewrite bits_nbits, H, addr_16 by assumption. reflexivity. Qed.

Lemma abits_to16 ip : valid_ip ip -> bits (to16 ip) = abits (addr ip).
Proof. intros H. rewrite abits_ip by (apply to16_length; assumption). rewrite to16_addr by assumption. reflexivity. Qed.

Lemma abits_v4 ip : length ip = 4%nat -> abits (addr ip) = nbits 96 0xffff ++ bits ip.
Proof.
  intros H. rewrite <- abits_to16 by (left; assumption). unfold to16. rewrite H. cbn [Nat.eqb].
  rewrite bits_app. f_equal.
Qed.

Definition wfb (b : block) : Prop := aligned b /\ logsz b <= 128 /\ base b < 2 ^ 128.

Lemma path_length b : length (path b) = (128 - N.to_nat (logsz b))%nat.
Proof. unfold path, abits. rewrite firstn_length, nbits_length. lia. Qed.

Lemma path_nbits b : path b = nbits (128 - N.to_nat (logsz b)) (base b / 2 ^ N.of_nat (128 - (128 - N.to_nat (logsz b)))).
Proof. unfold path, abits. apply firstn_nbits. lia. Qed.

(** [pfx p q]: p is an initial segment of q. *)
Definition pfx {A} (p q : list A) : Prop := exists r, q = p ++ r.

Lemma prefix_firstn {A} (p q : list A) : pfx p q <-> p = firstn (length p) q.
Proof.
  split.
  - intros [r ->]. rewrite firstn_app, firstn_all, Nat.sub_diag. cbn. rewrite app_nil_r. reflexivity.
  - intros H. exists (skipn (length p) q). rewrite H at 1. symmetry. apply firstn_skipn.
Qed.

Lemma div_bound x k : x < 2 ^ 128 -> k <= 128 -> x / 2 ^ k < 2 ^ (128 - k).
Proof.
  intros H1 H2. apply N.div_lt_upper_bound; [apply N.pow_nonzero; discriminate|].
  rewrite <- N.pow_add_r. replace (k + (128 - k)) with 128 by lia. assumption.
Qed.

Lemma prefix_path_div b a : logsz b <= 128 -> base b < 2 ^ 128 -> a < 2 ^ 128 ->
  (pfx (path b) (abits a) <-> a / 2 ^ logsz b = base b / 2 ^ logsz b).
Proof.
  intros Hl Hb Ha. rewrite prefix_firstn, path_length. unfold path, abits.
  rewrite !firstn_nbits by lia.
  replace (N.of_nat (128 - (128 - N.to_nat (logsz b)))) with (logsz b) by lia.
  split; [|congruence]. intros H. symmetry. apply nbits_inj in H; [assumption| |];
  replace (N.of_nat (128 - N.to_nat (logsz b))) with (128 - logsz b) by lia; apply div_bound; assumption.
Qed.

Lemma prefix_path_in b a : wfb b -> a < 2 ^ 128 -> (pfx (path b) (abits a) <-> in_block b a).
Proof.
  intros [Hal [Hl Hb]] Ha. rewrite prefix_path_div by assumption.
  rewrite <- (in_block_floor (base b) a (logsz b)).
  assert (base b / 2 ^ logsz b * 2 ^ logsz b = base b) as E.
  { unfold aligned in Hal. pose proof (N.div_mod (base b) (2 ^ logsz b) ltac:(apply N.pow_nonzero; discriminate)). lia. }
  rewrite E. reflexivity.
Qed.

Lemma prefix_trans {A} (p q r : list A) : pfx p q -> pfx q r -> pfx p r.
Proof. intros [x ->] [y ->]. exists (x ++ y). rewrite app_assoc. reflexivity. Qed.
Lemma prefix_refl {A} (p : list A) : pfx p p.
Proof. exists []. symmetry. apply app_nil_r. Qed.
Lemma pfx_len {A} (p q : list A) : pfx p q -> (length p <= length q)%nat.
Proof. intros [r ->]. rewrite app_length. lia. Qed.
Lemma prefix_eq {A} (p q : list A) : pfx p q -> length q = length p -> q = p.
Proof. intros [r ->] H. rewrite app_length in H. destruct r; [apply app_nil_r|cbn in H; lia]. Qed.
Lemma prefix_total {A} (p q r : list A) : pfx p r -> pfx q r -> (length p <= length q)%nat -> pfx p q.
Proof.
  rewrite (prefix_firstn p r), (prefix_firstn q r), (prefix_firstn p q). intros Hp Hq L.
  rewrite Hq, firstn_firstn. replace (Nat.min (length p) (length q)) with (length p) by lia. assumption.
Qed.

Lemma path_prefix_abits b : pfx (path b) (abits (base b)).
Proof. unfold path. exists (skipn (128 - N.to_nat (logsz b)) (abits (base b))). symmetry. apply firstn_skipn. Qed.

(** Sub-blocks are extended paths. *)
Lemma prefix_paths b c : wfb b -> wfb c ->
  (pfx (path c) (path b) <-> logsz b <= logsz c /\ in_block c (base b)).
Proof.
  intros Hb Hc. destruct Hb as [Ab [Lb Bb]]. split.
  - intros P. split.
    + apply pfx_len in P. rewrite !path_length in P. destruct Hc as [_ [Lc _]]. lia.
    + apply prefix_path_in; [assumption..|]. eapply prefix_trans; [exact P|apply path_prefix_abits].
  - intros [L I]. apply (prefix_path_in c (base b) Hc Bb) in I.
    apply (prefix_total _ _ (abits (base b))); [assumption|apply path_prefix_abits|].
    rewrite !path_length. lia.
Qed.

Lemma path_inj b c : wfb b -> wfb c -> path b = path c -> b = c.
Proof.
  intros Hb Hc E.
  assert (pfx (path c) (path b)) as P1 by (rewrite E; apply prefix_refl).
  assert (pfx (path b) (path c)) as P2 by (rewrite E; apply prefix_refl).
  apply prefix_paths in P1; [|assumption..]. apply prefix_paths in P2; [|assumption..].
  destruct P1 as [L1 I1], P2 as [L2 I2]. unfold in_block in *.
  destruct b as [bb lb], c as [cb lc]. cbn [base logsz] in *. f_equal; lia.
Qed.

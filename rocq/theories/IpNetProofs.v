From Verif Require Import IpNet Spec.
Open Scope N_scope.

(* ---------- finite checks over bytes ---------- *)
Definition all_bytes : list byte := map (fun k => n2b (N.of_nat k)) (seq 0 256).

Lemma In_all_bytes b : In b all_bytes.
Proof.
  unfold all_bytes. apply in_map_iff. exists (N.to_nat (b2n b)). split.
  - rewrite N2Nat.id. apply n2b_b2n.
  - apply in_seq. pose proof (b2n_lt b). lia.
Qed.

Lemma byte_forall (P : byte -> bool) : forallb P all_bytes = true -> forall b, P b = true.
Proof. intros H b. rewrite forallb_forall in H. apply H, In_all_bytes. Qed.

Lemma byte_forall2 (P : byte -> byte -> bool) :
  forallb (fun a => forallb (P a) all_bytes) all_bytes = true -> forall a b, P a b = true.
Proof.
  intros H a b. rewrite forallb_forall in H. specialize (H a (In_all_bytes a)).
  rewrite forallb_forall in H. apply H, In_all_bytes.
Qed.

(* ---------- NextIP ---------- *)
Lemma next_aux_spec l :
  length (snd (next_aux l)) = length l /\
  val (snd (next_aux l)) = (val l + 1) mod 2 ^ (8 * N.of_nat (length l)) /\
  fst (next_aux l) = (val l + 1 =? 2 ^ (8 * N.of_nat (length l))).
Proof.
  induction l as [|b r IH]; [repeat split; reflexivity|].
  cbn [next_aux]. destruct (next_aux r) as [c r'].
  cbn [fst snd] in IH. destruct IH as (L & V & C).
  pose proof (val_bound r) as Hb. pose proof (b2n_lt b) as Hlt.
  pose proof (pow_pos (8 * N.of_nat (length r))) as HP.
  destruct c.
  - symmetry in C. apply N.eqb_eq in C.
    cbn [fst snd val length]. rewrite pow8_S, L, b2n_n2b.
    set (P := 2 ^ (8 * N.of_nat (length r))) in *.
    rewrite C, N.mod_same in V by lia. rewrite V.
    unfold byte_eqb. rewrite b2n_n2b. change (b2n x00) with 0.
    split; [congruence|]. split.
    + replace (b2n b * P + val r + 1) with ((b2n b + 1) * P) by lia.
      rewrite N.mul_mod_distr_r by lia. lia.
    + destruct (N.eqb_spec ((b2n b + 1) mod 256) 0) as [E|E];
      destruct (N.eqb_spec (b2n b * P + val r + 1) (256 * P)) as [F|F]; try reflexivity; exfalso.
      * assert (b2n b = 255) by lia. apply F. nia.
      * assert (b2n b + 1 < 256 \/ b2n b + 1 = 256) as [G|G] by lia.
        -- nia.
        -- rewrite G in E. apply E. reflexivity.
  - symmetry in C. apply N.eqb_neq in C.
    cbn [fst snd val length]. rewrite pow8_S, L.
    set (P := 2 ^ (8 * N.of_nat (length r))) in *.
    rewrite N.mod_small in V by lia. rewrite V.
    split; [congruence|]. split.
    + rewrite N.mod_small by nia. lia.
    + symmetry. apply N.eqb_neq. nia.
Qed.

Lemma NextIP_length l : length (NextIP l) = length l.
Proof. apply next_aux_spec. Qed.
Lemma NextIP_val l : val (NextIP l) = (val l + 1) mod 2 ^ (8 * N.of_nat (length l)).
Proof. apply next_aux_spec. Qed.

(* ---------- addresses, to4, to16 ---------- *)
Lemma val_v4prefix : val v4prefix = 0xffff.
Proof. reflexivity. Qed.

Lemma to16_length ip : valid_ip ip -> length (to16 ip) = 16%nat.
Proof.
  intros [H|H]; unfold to16; rewrite H; cbn [Nat.eqb]; [|assumption].
  rewrite app_length, H. reflexivity.
Qed.
Lemma to16_val ip : valid_ip ip -> val (to16 ip) = addr ip.
Proof.
  intros [H|H]; unfold to16, addr; rewrite H; cbn [Nat.eqb]; [|reflexivity].
  rewrite val_app, H, val_v4prefix. reflexivity.
Qed.
Lemma to16_id ip : length ip = 16%nat -> to16 ip = ip.
Proof. intros H. unfold to16. rewrite H. reflexivity. Qed.
Lemma addr_16 ip : length ip = 16%nat -> addr ip = val ip.
Proof. intros H. unfold addr. rewrite H. reflexivity. Qed.
Lemma addr_bound ip : valid_ip ip -> addr ip < 2 ^ 128.
Proof.
  intros [H|H]; unfold addr; rewrite H; cbn [Nat.eqb]; pose proof (val_bound ip) as B; rewrite H in B.
  - change (2 ^ (8 * N.of_nat 4)) with (2 ^ 32) in B. lia.
  - exact B.
Qed.
Lemma to16_addr ip : valid_ip ip -> addr (to16 ip) = addr ip.
Proof. intros H. rewrite addr_16 by (apply to16_length; assumption). apply to16_val; assumption. Qed.
Lemma to16_valid ip : valid_ip ip -> valid_ip (to16 ip).
Proof. intros H. right. apply to16_length; assumption. Qed.
Lemma NextIP_valid ip : valid_ip ip -> valid_ip (NextIP ip).
Proof. unfold valid_ip. rewrite NextIP_length. tauto. Qed.

Lemma firstn_skipn_val n l : (n <= length l)%nat ->
  val l = val (firstn n l) * 2 ^ (8 * N.of_nat (length l - n)) + val (skipn n l).
Proof.
  intros H. rewrite <- (firstn_skipn n l) at 1. rewrite val_app, skipn_length. reflexivity.
Qed.

Lemma to4_mapped ip : length ip = 16%nat ->
  (bytes_eqb (firstn 12 ip) v4prefix = true <-> 0xffff * 2 ^ 32 <= val ip < 0x10000 * 2 ^ 32).
Proof.
  intros H. pose proof (firstn_skipn_val 12 ip ltac:(lia)) as E. rewrite H in E.
  change (2 ^ (8 * N.of_nat (16 - 12))) with (2 ^ 32) in E.
  assert (val (skipn 12 ip) < 2 ^ 32) as B.
  { pose proof (val_bound (skipn 12 ip)) as B. rewrite skipn_length, H in B. exact B. }
  destruct (bytes_eqb_spec (firstn 12 ip) v4prefix) as [F|F].
  - rewrite F, val_v4prefix in E. split; [intros _|reflexivity]. lia.
  - split; [discriminate|]. intros R. exfalso. apply F. apply val_inj.
    + rewrite firstn_length, H. reflexivity.
    + rewrite val_v4prefix. lia.
Qed.

(** To4 is non-nil exactly for addresses of ::ffff:0:0/96 and then keeps the address. *)
Lemma to4_spec ip : valid_ip ip ->
  (to4 ip <> [] <-> 0xffff * 2 ^ 32 <= addr ip < 0x10000 * 2 ^ 32) /\
  (to4 ip <> [] -> length (to4 ip) = 4%nat /\ addr (to4 ip) = addr ip).
Proof.
  intros [H|H].
  - unfold to4, addr. rewrite H. cbn [Nat.eqb]. pose proof (val_bound ip) as B. rewrite H in B.
    change (2 ^ (8 * N.of_nat 4)) with (2 ^ 32) in B.
    assert (ip <> []) by (destruct ip; discriminate). rewrite H. cbn [Nat.eqb].
    split; [|auto]. split; [lia|auto].
  - rewrite (addr_16 ip H). pose proof (to4_mapped ip H) as M.
    unfold to4. rewrite H. cbn [Nat.eqb andb].
    assert (length (skipn 12 ip) = 4%nat) as L4 by (rewrite skipn_length, H; reflexivity).
    destruct (bytes_eqb (firstn 12 ip) v4prefix) eqn:E.
    + assert (skipn 12 ip <> []) by (destruct (skipn 12 ip); discriminate).
      split; [tauto|]. intros _. split; [assumption|].
      unfold addr. rewrite L4. cbn [Nat.eqb].
      pose proof (firstn_skipn_val 12 ip ltac:(lia)) as E'. rewrite H in E'.
      destruct (bytes_eqb_spec (firstn 12 ip) v4prefix) as [F|F]; [|discriminate].
      rewrite F, val_v4prefix in E'. change (2 ^ (8 * N.of_nat (16 - 12))) with (2 ^ 32) in E'. lia.
    + split; [|congruence]. split; [congruence|]. intros R. apply M in R. discriminate.
Qed.

(* ---------- comparison ---------- *)
Lemma lex_compare_val a b : length a = length b -> lex_compare a b = (val a ?= val b).
Proof.
  revert b; induction a as [|x a IH]; intros [|y b] H; try discriminate; [reflexivity|].
  injection H as H. cbn [lex_compare val]. rewrite H.
  pose proof (val_bound a) as Ba. rewrite H in Ba. pose proof (val_bound b) as Bb.
  set (P := 2 ^ (8 * N.of_nat (length b))) in *.
  destruct (N.compare_spec (b2n x) (b2n y)) as [E|E|E].
  - rewrite (IH b H), E. symmetry. 
    destruct (N.compare_spec (val a) (val b)) as [F|F|F].
    + apply N.compare_eq_iff. lia.
    + apply N.compare_lt_iff. lia.
    + apply N.compare_gt_iff. lia.
  - symmetry. apply N.compare_lt_iff. nia.
  - symmetry. apply N.compare_gt_iff. nia.
Qed.

Lemma IPLess_addr a b : valid_ip a -> valid_ip b -> IPLess a b = (addr a <? addr b).
Proof.
  intros Ha Hb. unfold IPLess.
  assert (forall x y, length x = length y ->
    match lex_compare x y with Lt => true | _ => false end = (val x <? val y)) as K.
  { intros x y H. rewrite lex_compare_val by assumption. reflexivity. }
  destruct Ha as [Ha|Ha], Hb as [Hb|Hb]; rewrite Ha, Hb; cbn [Nat.ltb Nat.leb].
  - rewrite K by congruence. unfold addr. rewrite Ha, Hb. cbn [Nat.eqb]. lia.
  - rewrite K by (rewrite to16_length; [congruence|left; assumption]).
    rewrite to16_val by (left; assumption). rewrite (addr_16 b) by assumption. reflexivity.
  - rewrite K by (rewrite to16_length; [congruence|left; assumption]).
    rewrite to16_val by (left; assumption). rewrite (addr_16 a) by assumption. reflexivity.
  - rewrite K by congruence. rewrite !addr_16 by assumption. reflexivity.
Qed.

(* ---------- masks ---------- *)
Lemma mask_byte_val n : (n < 8)%nat -> b2n (mask_byte n) = 256 - 2 ^ (8 - N.of_nat n).
Proof. intros H. do 8 (destruct n as [|n]; [reflexivity|]). lia. Qed.

Lemma mask_bytes_length len ones : length (mask_bytes len ones) = len.
Proof.
  revert ones; induction len as [|k IH]; intros ones; [reflexivity|].
  cbn [mask_bytes]. destruct (8 <=? ones)%nat; cbn [length]; rewrite IH; reflexivity.
Qed.

Lemma mask_bytes_val len ones : (ones <= 8 * len)%nat ->
  val (mask_bytes len ones) = 2 ^ (8 * N.of_nat len) - 2 ^ (8 * N.of_nat len - N.of_nat ones).
Proof.
  revert ones; induction len as [|k IH]; intros ones H.
  - replace ones with 0%nat by lia. reflexivity.
  - cbn [mask_bytes]. rewrite pow8_S.
    destruct (Nat.leb_spec 8 ones) as [L|L].
    + cbn [val]. rewrite mask_bytes_length, IH by lia. change (b2n xff) with 255.
      replace (8 * N.of_nat (S k) - N.of_nat ones) with (8 * N.of_nat k - N.of_nat (ones - 8)) by lia.
      set (P := 2 ^ (8 * N.of_nat k)).
      assert (2 ^ (8 * N.of_nat k - N.of_nat (ones - 8)) <= P).
      { apply N.pow_le_mono_r; lia. }
      lia.
    + cbn [val]. rewrite mask_bytes_length, IH by lia. rewrite mask_byte_val by assumption.
      replace (8 * N.of_nat k - N.of_nat 0) with (8 * N.of_nat k) by lia.
      replace (8 * N.of_nat (S k) - N.of_nat ones) with ((8 - N.of_nat ones) + 8 * N.of_nat k) by lia.
      rewrite N.pow_add_r. set (P := 2 ^ (8 * N.of_nat k)).
      assert (2 ^ (8 - N.of_nat ones) <= 256).
      { change 256 with (2 ^ 8). apply N.pow_le_mono_r; lia. }
      nia.
Qed.

Lemma CIDRMask_ok ones len : (len = 4 \/ len = 16)%nat -> (ones <= 8 * len)%nat ->
  CIDRMask (Z.of_nat ones) (Z.of_nat len * 8) = mask_bytes len ones.
Proof.
  intros Hl Ho. unfold CIDRMask.
  replace (_ && _ && _)%bool with true by lia.
  f_equal; [|lia]. rewrite Z.div_mul by discriminate. lia.
Qed.

(** A mask with [h] zero bits, as bytes. *)
Lemma mask_unique m len h : length m = len -> h <= 8 * N.of_nat len ->
  val m = 2 ^ (8 * N.of_nat len) - 2 ^ h ->
  m = mask_bytes len (8 * len - N.to_nat h).
Proof.
  intros L H V. apply val_inj; [rewrite mask_bytes_length; assumption|].
  rewrite mask_bytes_val, V by lia. f_equal. f_equal. lia.
Qed.

Lemma lead_ones_mask n : (n < 8)%nat -> lead_ones 8 (b2n (mask_byte n)) = (n, 0).
Proof. intros H. do 8 (destruct n as [|n]; [reflexivity|]). lia. Qed.

Lemma mask_bytes_zero k : mask_bytes k 0 = repeat x00 k.
Proof. induction k as [|k IH]; [reflexivity|]. cbn [mask_bytes Nat.leb repeat]. rewrite IH. reflexivity. Qed.

Lemma simpleMaskLength_mask_bytes len ones : (ones <= 8 * len)%nat ->
  simpleMaskLength (mask_bytes len ones) = Some ones.
Proof.
  revert ones; induction len as [|k IH]; intros ones H.
  - cbn. f_equal. lia.
  - cbn [mask_bytes]. destruct (Nat.leb_spec 8 ones) as [L|L].
    + cbn [simpleMaskLength]. change (byte_eqb xff xff) with true. cbv iota.
      rewrite IH by lia. f_equal. lia.
    + cbn [simpleMaskLength].
      assert (byte_eqb (mask_byte ones) xff = false) as ->.
      { do 8 (destruct ones as [|ones]; [reflexivity|]). lia. }
      rewrite lead_ones_mask by assumption. rewrite mask_bytes_zero.
      assert (forallb (fun c => byte_eqb c x00) (repeat x00 k) = true) as ->.
      { apply forallb_forall. intros x Hx. apply repeat_spec in Hx. subst. reflexivity. }
      reflexivity.
Qed.

Lemma mask_size_ok len ones : (ones <= 8 * len)%nat ->
  mask_size (mask_bytes len ones) = (ones, 8 * len)%nat.
Proof.
  intros H. unfold mask_size. rewrite simpleMaskLength_mask_bytes by assumption.
  rewrite mask_bytes_length. reflexivity.
Qed.

Lemma or_not_mask b n : (n < 8)%nat ->
  b2n (or_not b (mask_byte n)) = (b2n b / 2 ^ (8 - N.of_nat n) + 1) * 2 ^ (8 - N.of_nat n) - 1.
Proof.
  intros H. apply N.eqb_eq.
  do 8 (destruct n as [|n]; [revert b; apply byte_forall; vm_compute; reflexivity|]). lia.
Qed.
Lemma or_not_ff b : or_not b xff = b.
Proof.
  destruct (byte_eqb_spec (or_not b xff) b) as [E|E]; [assumption|exfalso].
  assert (forall b, byte_eqb (or_not b xff) b = true) as K by (apply byte_forall; vm_compute; reflexivity).
  specialize (K b). destruct (byte_eqb_spec (or_not b xff) b); congruence.
Qed.

Lemma zip_with_length {A B C} (f : A -> B -> C) l m : length l = length m -> length (zip_with f l m) = length l.
Proof. revert m; induction l as [|a l IH]; intros [|b m] H; try discriminate; [reflexivity|]. cbn. f_equal. apply IH. cbn in H. lia. Qed.

Lemma or_not_zero l k : length l = k -> val (zip_with or_not l (mask_bytes k 0)) = 2 ^ (8 * N.of_nat k) - 1.
Proof.
  revert l; induction k as [|k IH]; intros [|b l] H; try discriminate; [reflexivity|].
  cbn [mask_bytes Nat.leb zip_with val]. injection H as H. rewrite IH by assumption.
  rewrite zip_with_length by (rewrite mask_bytes_length; assumption). rewrite H, pow8_S.
  rewrite or_not_mask by lia. change (2 ^ (8 - N.of_nat 0)) with 256.
  rewrite N.div_small by apply b2n_lt.
  pose proof (pow_pos (8 * N.of_nat k)). lia.
Qed.

Lemma last_val l ones : (ones <= 8 * length l)%nat ->
  val (zip_with or_not l (mask_bytes (length l) ones)) =
  (val l / 2 ^ (8 * N.of_nat (length l) - N.of_nat ones) + 1) * 2 ^ (8 * N.of_nat (length l) - N.of_nat ones) - 1.
Proof.
  revert ones; induction l as [|b l IH]; intros ones H.
  - cbn. reflexivity.
  - cbn [length mask_bytes]. destruct (Nat.leb_spec 8 ones) as [L|L].
    + cbn [zip_with val]. rewrite or_not_ff, IH by (cbn [length] in H; lia).
      rewrite zip_with_length by (rewrite mask_bytes_length; reflexivity).
      replace (8 * N.of_nat (S (length l)) - N.of_nat ones)
        with (8 * N.of_nat (length l) - N.of_nat (ones - 8)) by lia.
      set (h := 8 * N.of_nat (length l) - N.of_nat (ones - 8)).
      assert (2 ^ (8 * N.of_nat (length l)) = 2 ^ (8 * N.of_nat (length l) - h) * 2 ^ h) as E.
      { rewrite <- N.pow_add_r. f_equal. lia. }
      rewrite E at 2. rewrite N.mul_assoc, N.add_comm, N.add_comm with (n := _ * _ * _).
      rewrite N.div_add by (apply N.pow_nonzero; discriminate).
      rewrite E. pose proof (pow_pos h).
      rewrite (N.mul_add_distr_r (_ / _ + _)), (N.mul_add_distr_r (_ / _)). lia.
    + cbn [zip_with val]. rewrite or_not_zero by reflexivity. rewrite or_not_mask by assumption.
      rewrite zip_with_length by (rewrite mask_bytes_length; reflexivity).
      replace (8 * N.of_nat (S (length l)) - N.of_nat ones)
        with ((8 - N.of_nat ones) + 8 * N.of_nat (length l)) by lia.
      rewrite N.pow_add_r. set (P := 2 ^ (8 * N.of_nat (length l))). set (Q := 2 ^ (8 - N.of_nat ones)).
      assert (0 < P) by apply pow_pos. assert (0 < Q) by apply pow_pos.
      pose proof (val_bound l) as B. fold P in B.
      rewrite (N.mul_comm Q P), <- N.div_div by lia.
      replace (b2n b * P + val l) with (val l + b2n b * P) by lia.
      rewrite N.div_add, (N.div_small (val l)) by lia. rewrite N.add_0_l. 
      set (q := b2n b / Q). assert (1 <= (q + 1) * Q) by nia. nia.
Qed.

(** LastIP of a network with mask of h zero bits. *)
Lemma LastIP_spec n b : net_is n b ->
  exists l, LastIP n = Ok l /\ length l = length (nIP n) /\
    val l = (val (nIP n) / 2 ^ logsz b + 1) * 2 ^ logsz b - 1.
Proof.
  intros [Hv Hm Hh Hmv Hb]. unfold LastIP. rewrite Hm, Nat.ltb_irrefl.
  eexists. split; [reflexivity|]. split; [apply zip_with_length; symmetry; assumption|].
  rewrite (mask_unique (nMask n) (length (nIP n)) (logsz b)) by assumption.
  rewrite last_val by lia. repeat f_equal; lia.
Qed.

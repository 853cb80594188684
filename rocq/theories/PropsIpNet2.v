(** Property theorems C56: first addresses, the order on networks, dotted texts as
    numbers, sorting ranges.  Vocabulary: Spec.v. *)
From Verif Require Import Base NetIP NetText NetTextProofs IpNet Spec IpNetProofs IpNetProofs2 IpNetStr.
Open Scope N_scope.

Lemma bytes_eqb_val a b : length a = length b -> bytes_eqb a b = (val a =? val b).
Proof.
  intros L. destruct (bytes_eqb_spec a b) as [->|N]; [rewrite N.eqb_refl; reflexivity|].
  symmetry. apply N.eqb_neq. intros E. apply N. apply val_inj; assumption.
Qed.

(** C56: IsFirstIP(ip, true) recognises the address :: in its 16-byte spelling only,
    which is the only one it has. *)
Theorem C56_first_ipv6 : forall ip, valid_ip ip -> (IsFirstIP ip true = true <-> addr ip = 0).
Proof.
  intros ip [L|L]; unfold IsFirstIP, ip_equal; rewrite L; change (length IPv6zero) with 16%nat; cbn [Nat.eqb andb].
  - change (bytes_eqb (firstn 12 IPv6zero) v4prefix) with false. cbn [andb]. unfold addr. rewrite L. cbn [Nat.eqb].
    split; [discriminate|intros H; exfalso; lia].
  - rewrite bytes_eqb_val by (rewrite L; reflexivity). rewrite addr_16 by assumption.
    change (val IPv6zero) with 0. apply N.eqb_eq.
Qed.
Print Assumptions C56_first_ipv6.

(** C56: IsFirstIP(ip, false) looks at the last 32 bits: for an IPv4 address in either
    spelling that is 0.0.0.0; for other addresses any that ends in 32 zero bits (finding). *)
Theorem C56_first_ipv4 : forall ip, valid_ip ip ->
  (IsFirstIP ip false = true <-> addr ip mod 2 ^ 32 = 0) /\
  (is_v4 (addr ip) -> (IsFirstIP ip false = true <-> addr ip = v4base)).
Proof.
  intros ip V. assert (IsFirstIP ip false = true <-> addr ip mod 2 ^ 32 = 0) as H.
  { destruct V as [L|L]; unfold IsFirstIP; rewrite L; cbn [Nat.eqb].
    - unfold ip_equal. rewrite L. change (length IPv4zero) with 16%nat. cbn [Nat.eqb andb].
      change (bytes_eqb (firstn 12 IPv4zero) v4prefix) with true. cbn [andb]. rewrite bytes_eqb_val by (rewrite L; reflexivity).
      change (val (skipn 12 IPv4zero)) with 0. unfold addr. rewrite L. cbn [Nat.eqb].
      rewrite N.add_comm, N.mod_add by discriminate. rewrite N.mod_small.
      2:{ pose proof (val_bound ip) as B. rewrite L in B. exact B. }
      apply N.eqb_eq.
    - rewrite bytes_eqb_val by (rewrite skipn_length, L; reflexivity). change (val [x00; x00; x00; x00]) with 0.
      rewrite addr_16 by assumption. rewrite (firstn_skipn_val 12 ip) by (rewrite L; lia).
      pose proof (val_bound (skipn 12 ip)) as B. rewrite skipn_length, L in *. change (8 * N.of_nat (16 - 12)) with 32 in *.
      rewrite N.add_comm, N.mod_add by discriminate. rewrite N.mod_small by exact B. apply N.eqb_eq. }
  split; [assumption|]. intros I. rewrite H. unfold is_v4, v4base in *. split; [|intros ->; reflexivity].
  intros M. pose proof (N.div_mod (addr ip) (2 ^ 32) ltac:(discriminate)) as D. rewrite M in D.
  assert (addr ip / 2 ^ 32 = 0xffff) as Q.
  { symmetry. apply N.div_unique with (addr ip - 0xffff * 2 ^ 32); lia. }
  rewrite Q in D. lia.
Qed.
Print Assumptions C56_first_ipv4.
Theorem C56_first_refuted : exists ip, valid_ip ip /\ ~ is_v4 (addr ip) /\ addr ip <> 0 /\ IsFirstIP ip false = true.
Proof.
  exists (x20 :: x01 :: repeat x00 14). split; [right; reflexivity|]. split; [intros [H1 H2]; vm_compute in H2; discriminate H2|].
  split; [vm_compute; discriminate|reflexivity].
Qed.

(** C56: MaskLess compares networks: one with a 4-byte address before one with a 16-byte
    address, otherwise the one with fewer addresses first. *)
Theorem C56_mask_less : forall a b ba bb, net_is a ba -> net_is b bb ->
  MaskLess a b = true <->
    (length (nIP a) = 4%nat /\ length (nIP b) = 16%nat) \/
    (length (nIP a) = length (nIP b) /\ 2 ^ logsz ba < 2 ^ logsz bb).
Proof.
  intros a b ba bb Ha Hb. unfold MaskLess. rewrite (mask_size_net _ _ Ha), (mask_size_net _ _ Hb). cbn [fst].
  pose proof (ni_logsz _ _ Ha) as La. pose proof (ni_logsz _ _ Hb) as Lb.
  rewrite <- N.pow_lt_mono_r_iff by lia.
  destruct (ni_len _ _ Ha) as [Ea|Ea], (ni_len _ _ Hb) as [Eb|Eb]; rewrite Ea, Eb in *; cbn [Nat.eqb].
  - rewrite Nat.ltb_lt. lia.
  - change (4 <? 16)%nat with true. intuition.
  - change (16 <? 4)%nat with false. lia.
  - rewrite Nat.ltb_lt. lia.
Qed.
Print Assumptions C56_mask_less.

(** C56: so it is a strict weak order, and networks neither of which is less have the
    same spelling length and the same size. *)
Theorem C56_mask_less_order : forall a b c ba bb bc, net_is a ba -> net_is b bb -> net_is c bc ->
  MaskLess a a = false /\
  (MaskLess a b = true -> MaskLess b a = false) /\
  (MaskLess a b = true -> MaskLess b c = true -> MaskLess a c = true) /\
  (MaskLess a b = false -> MaskLess b a = false -> length (nIP a) = length (nIP b) /\ logsz ba = logsz bb).
Proof.
  intros a b c ba bb bc Ha Hb Hc.
  assert (forall x y bx yb, net_is x bx -> net_is y yb -> (MaskLess x y = true <->
    (length (nIP x) < length (nIP y))%nat \/ (length (nIP x) = length (nIP y) /\ logsz bx < logsz yb))) as L.
  { intros x y bx yb Hx Hy. rewrite (C56_mask_less x y bx yb Hx Hy). rewrite <- N.pow_lt_mono_r_iff by lia.
    destruct (ni_len _ _ Hx) as [Ex|Ex], (ni_len _ _ Hy) as [Ey|Ey]; rewrite Ex, Ey; lia. }
  rewrite <- !not_true_iff_false, (L _ _ _ _ Ha Ha), (L _ _ _ _ Ha Hb), (L _ _ _ _ Hb Ha), (L _ _ _ _ Hb Hc), (L _ _ _ _ Ha Hc).
  clear. lia.
Qed.
Print Assumptions C56_mask_less_order.

(** C56: IPv4StrToUint32 of the text of an address is its number if it is an IPv4 address
    and 0 for every other text, so 0.0.0.0 and no address cannot be told apart. *)
Theorem C56_str_to_u32 : forall ip, valid_ip ip ->
  IPv4StrToUint32 (ip_string ip) = Ok (if (v4base <=? addr ip) && (addr ip <? v4base + 2 ^ 32) then addr ip - v4base else 0).
Proof.
  intros ip V. unfold IPv4StrToUint32. rewrite ParseIP_string by assumption.
  assert (valid_ip (to16 ip)) as V16 by (apply to16_valid; assumption).
  pose proof (to16_addr ip V) as A. pose proof (to4_spec (to16 ip) V16) as T.
  destruct (is_nil (to4 (to16 ip))) eqn:E.
  - destruct ((v4base <=? addr ip) && (addr ip <? v4base + 2 ^ 32)) eqn:C; [|reflexivity]. exfalso.
    assert (is_v4 (addr (to16 ip))) as I by (rewrite A; unfold is_v4; lia).
    destruct (to4 (to16 ip)) eqn:F; [|discriminate E].
    pose proof (IPv4ToUint32_v4 _ V16 I) as X. unfold IPv4ToUint32 in X. rewrite F in X. discriminate X.
  - assert (length (to4 (to16 ip)) = 4%nat /\ to4 (to4 (to16 ip)) = to4 (to16 ip)) as [L4 T4].
    { assert (length (to4 (to16 ip)) = 4%nat) as L4.
      { unfold to4 in *. destruct V16 as [L|L]; rewrite L in *; cbn [Nat.eqb andb] in *; [assumption|].
        destruct (bytes_eqb _ _); [rewrite skipn_length, L; reflexivity|discriminate E]. }
      split; [assumption|]. unfold to4 at 1. rewrite L4. reflexivity. }
    assert (IPv4ToUint32 (to4 (to16 ip)) = IPv4ToUint32 (to16 ip)) as -> by (unfold IPv4ToUint32; rewrite T4; reflexivity).
    assert (is_v4 (addr (to16 ip)) \/ ~ is_v4 (addr (to16 ip))) as [I|I] by (unfold is_v4; lia).
    + rewrite IPv4ToUint32_v4 by assumption. rewrite A in *. unfold is_v4 in I.
      replace ((v4base <=? addr ip) && (addr ip <? v4base + 2 ^ 32)) with true by lia. reflexivity.
    + exfalso. pose proof (IPv4ToUint32_panic _ V16 I) as X. unfold IPv4ToUint32 in X.
      destruct (to4 (to16 ip)) as [|x0 [|x1 [|x2 [|x3 [|]]]]]; cbn in L4; try discriminate L4. discriminate X.
Qed.
Print Assumptions C56_str_to_u32.
Theorem C56_str_bad : forall s, ParseIP s = None -> IPv4StrToUint32 s = Ok 0.
Proof. intros s H. unfold IPv4StrToUint32. rewrite H. reflexivity. Qed.

(** C56: the sort.Interface methods: Less orders by start address, Swap exchanges two
    entries and nothing else, both panic exactly outside the slice. *)
Theorem C56_ranges : forall r i j, Forall wf_range r ->
  match nth_error r i, nth_error r j with
  | Some x, Some y =>
      RangesLess r i j = Ok (addr (rStart x) <? addr (rStart y)) /\
      exists r', RangesSwap r i j = Ok r' /\ RangesLen r' = RangesLen r /\
        nth_error r' i = Some y /\ nth_error r' j = Some x /\
        forall k, k <> i -> k <> j -> nth_error r' k = nth_error r k
  | _, _ => RangesLess r i j = Panic /\ RangesSwap r i j = Panic
  end.
Proof.
  assert (forall r i x, (i < length r)%nat -> length (set_range r i x) = length r /\
     forall k, nth_error (set_range r i x) k = if (k =? i)%nat then Some x else nth_error r k) as S.
  { intros r i x H. unfold set_range. split.
    - rewrite app_length, firstn_length. cbn [length]. rewrite skipn_length. lia.
    - intros k. destruct (Nat.eqb_spec k i) as [->|N].
      + rewrite nth_error_app2 by (rewrite firstn_length; lia). rewrite firstn_length. replace (i - Nat.min i (length r))%nat with 0%nat by lia. reflexivity.
      + destruct (Nat.lt_ge_cases k i) as [L|L].
        * rewrite nth_error_app1 by (rewrite firstn_length; lia).
          rewrite <- (firstn_skipn i r) at 2. rewrite nth_error_app1 by (rewrite firstn_length; lia). reflexivity.
        * rewrite nth_error_app2 by (rewrite firstn_length; lia). rewrite firstn_length.
          replace (k - Nat.min i (length r))%nat with (S (k - S i)) by lia. cbn [nth_error].
          rewrite <- (firstn_skipn (S i) r) at 2. rewrite nth_error_app2 by (rewrite firstn_length; lia).
          rewrite firstn_length. f_equal. lia. }
  intros r i j F. unfold RangesLess, RangesSwap. destruct (nth_error r i) as [x|] eqn:Ei; [|auto]. destruct (nth_error r j) as [y|] eqn:Ej; [|auto].
  rewrite Forall_forall in F. pose proof (F _ (nth_error_In _ _ Ei)) as Wx. pose proof (F _ (nth_error_In _ _ Ej)) as Wy.
  rewrite IPLess_addr by (apply wr_s; assumption). split; [reflexivity|].
  assert (i < length r)%nat as Hi by (apply nth_error_Some; congruence). assert (j < length r)%nat as Hj by (apply nth_error_Some; congruence).
  destruct (S r i y Hi) as [L1 N1]. destruct (S (set_range r i y) j x ltac:(lia)) as [L2 N2].
  eexists. split; [reflexivity|]. unfold RangesLen. split; [lia|]. rewrite !N2, !N1, !Nat.eqb_refl.
  split; [|split; [reflexivity|]].
  - destruct (Nat.eqb_spec i j) as [->|]; [congruence|reflexivity].
  - intros k Hki Hkj. rewrite N2, N1. apply Nat.eqb_neq in Hki, Hkj. rewrite Hki, Hkj. reflexivity.
Qed.
Print Assumptions C56_ranges.

Example C56_case : IsFirstIP IPv6zero true = true /\ IsFirstIP [x00; x00; x00; x00] false = true /\
  IsFirstIP (IPv4 x00 x00 x00 x00) false = true /\ IsFirstIP [x00; x00; x00; x01] false = false /\
  MaskLess (IpNet [x0a; x00; x00; x00] 16) (IpNet [x0a; x00; x00; x00] 8) = true /\
  MaskLess (IpNet [x0a; x00; x00; x00] 8) (IpNet [x0a; x00; x00; x00] 16) = false /\
  MaskLess (IpNet [x0a; x00; x00; x00] 8) (IpNet (repeat x20 16) 64) = true /\
  IPv4StrToUint32 (str "1.2.3.4") = Ok 0x01020304 /\ IPv4StrToUint32 (str "2001:db8::1") = Ok 0 /\
  IPv4StrToUint32 (str "none") = Ok 0.
Proof. vm_compute. repeat split. Qed.

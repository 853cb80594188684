(** C37-C39: the awdb data section.  Statements use SpecAw (the format) and the
    decoder of AwDecode. *)
From Verif Require Import Base AwDecode SpecAw AwDecodeProofs.
Open Scope N_scope.

(** C37: whatever bytes stand before and after, an encoding of v at offset o that ends
    at o' decodes to v and o'.  [enc_at] has every size class and pointers.  The fuel
    for key pointers is immaterial from the length of the buffer on. *)
Theorem C37_decode_encoded : forall buf o v o' kf,
  enc_at buf max_depth o v o' -> (length buf < kf)%nat ->
  decode buf kf max_depth KAny o = Ok (v, o').
Proof. intros buf o v o' kf H Hk. now apply enc_at_decode. Qed.

(** The same for the output of the plain encoder. *)
Theorem C37_roundtrip : forall v pre post kf,
  encodable v -> (depth v <= 513)%nat -> (length (pre ++ encode v ++ post) < kf)%nat ->
  decode (pre ++ encode v ++ post) kf max_depth KAny (len pre) = Ok (v, len pre + len (encode v)).
Proof.
  intros v pre post kf He Hd Hk. apply C37_decode_encoded; [|assumption]. now apply encode_at.
Qed.

(** One level more is refused: the depth limit is exact. *)
Fixpoint nest (n : nat) : value := match n with O => VList [] | S k => VList [nest k] end.
Lemma nest_decode n buf kf o : holds buf o (encode (nest n)) -> decode buf kf n KAny o = Err ErrInvalidDb.
Proof.
  revert o. induction n; intros o H; [reflexivity|].
  cbn [nest encode flat_map length] in H. change (header 11 (N.of_nat 1)) with [x01; x04] in H. rewrite app_nil_r in H.
  assert (E : decodeCtrlData buf o = Ok (11, 1, o + 2)).
  { apply (ctrl_header buf o 11 1 (encode (nest n))); [exact H|lia|reflexivity]. }
  cbn [decode]. rewrite E. cbn [bind]. change (11 =? tBool) with false. change (11 =? tMap) with false.
  change (11 =? tPointer) with false. change (11 =? tSlice) with true. cbv iota. change (N.to_nat 1) with 1%nat.
  cbn [list_loop]. rewrite IHn; [reflexivity|].
  destruct (holds_split _ _ _ H) as (pre & post & -> & <-); [discriminate|].
  replace (pre ++ ([x01; x04] ++ encode (nest n)) ++ post) with ((pre ++ [x01; x04]) ++ encode (nest n) ++ post)
    by (rewrite <- !app_assoc; reflexivity).
  replace (N.of_nat (length pre) + 2) with (N.of_nat (length (pre ++ [x01; x04]))) by (rewrite app_length; cbn [length]; lia).
  apply holds_intro.
Qed.
Theorem C37_depth_limit : forall pre post kf, decode (pre ++ encode (nest 513) ++ post) kf max_depth KAny (len pre) = Err ErrInvalidDb.
Proof. intros. apply nest_decode. apply holds_intro. Qed.

(** A map with a shared value: {"a": "xy", "b": pointer to "xy", "n": -2}, behind one
    other byte. *)
Definition shared : bytes :=
  [x00] ++ header 7 3 ++ header 2 1 ++ str "a" ++ header 2 2 ++ str "xy"
  ++ header 2 1 ++ str "b" ++ [n2b 32; n2b 4]
  ++ header 2 1 ++ str "n" ++ header 8 4 ++ [xff; xff; xff; xfe].
Example C37_case_shared : enc_at shared max_depth 1
  (VMap [(str "a", VStr (str "xy")); (str "b", VStr (str "xy")); (str "n", VInt (-2))]) 19.
Proof.
  apply ea_map; [reflexivity|reflexivity|].
  apply en_cons with (o1 := 4) (o2 := 7).
  { apply (ka_str shared 2 (str "a")); reflexivity. }
  { apply (ea_str shared 511 4 (str "xy")); reflexivity. }
  apply en_cons with (o1 := 9) (o2 := 11).
  { apply (ka_str shared 7 (str "b")); reflexivity. }
  { eapply (ea_ptr shared 511 9 4 [n2b 32; n2b 4]); [apply pt1; reflexivity|reflexivity|].
    apply (ea_str shared 510 4 (str "xy")); reflexivity. }
  apply en_cons with (o1 := 13) (o2 := 19).
  { apply (ka_str shared 11 (str "n")); reflexivity. }
  { apply (ea_int shared 511 13 [xff; xff; xff; xfe]); [cbn; lia|reflexivity]. }
  constructor.
Qed.
Example C37_case_encodable : exists v, encodable v /\ depth v = 3%nat /\
  v = VMap [(str "k", VList [VUint 7; VStr (str "x")]); (str "z", VInt (-5))].
Proof. eexists. split; [|split; [|reflexivity]]; [cbn; unfold size_limit; repeat split; cbn; lia|reflexivity]. Qed.

(** C38: no buffer, offset, target or limit makes decoding read out of bounds. *)
Theorem C38_no_crash : forall buf kf lvl kd o, decode buf kf lvl kd o <> Panic.
Proof. intros. apply decode_tame. Qed.
Theorem C38_no_crash_metadata : forall buf kf sf lvl o,
  decodeMeta buf kf sf lvl o <> Panic /\ nextValueOffset buf sf o 1 <> Panic.
Proof. intros. split; [apply decodeMeta_tame | apply nextValueOffset_tame]. Qed.

(** C39: if no chain of (loosely read) pointers comes back to its start, decoding any
    offset of the buffer into any target ends with a value or an error. *)
Theorem C39_terminates : forall buf, (forall q, ~ plus (leads buf) q q) -> forall kf, (length buf < kf)%nat ->
  forall kd o, (exists r, decode buf kf max_depth kd o = Ok r) \/ (exists e, decode buf kf max_depth kd o = Err e).
Proof.
  intros buf Ha kf Hk kd o.
  assert (O : decode buf kf max_depth kd o <> OutOfFuel).
  { apply decode_over. intros o'. apply decodeKey_acyclic; [|assumption].
    intros q Hq. apply (Ha q). revert Hq. apply plus_iff. apply key_next_leads. }
  assert (T := decode_tame buf kf max_depth kd o). unfold tame in T.
  destruct (decode buf kf max_depth kd o); eauto; congruence.
Qed.
(** The same for the metadata; skipping a value ends for every buffer. *)
Theorem C39_terminates_metadata : forall buf, (forall q, ~ plus (leads buf) q q) ->
  forall kf sf, (length buf < kf)%nat -> (length buf + 1 < sf)%nat ->
  forall o, decodeMeta buf kf sf max_depth o <> OutOfFuel.
Proof.
  intros buf Ha kf sf Hk Hs o. apply decodeMeta_over; [|assumption]. intros o'. apply decodeKey_acyclic; [|assumption].
  intros q Hq. apply (Ha q). revert Hq. apply plus_iff. apply key_next_leads.
Qed.
Theorem C39_skip_terminates : forall buf sf o k, (length buf + 1 < sf)%nat -> nextValueOffset buf sf o k <> OutOfFuel.
Proof. intros. apply nextValueOffset_over. unfold blen. lia. Qed.

(** Values need no such hypothesis: without maps, pointer cycles are cut off.  Here is
    the exact finding for keys: a map whose first key leads into a pointer cycle is never
    decoded, whatever the fuel; and only such keys are not. *)
Theorem C39_cyclic_key_diverges : forall buf o n q, holds buf o (header 7 (N.of_nat (S n))) -> N.of_nat (S n) < size_limit ->
  let k := o + len (header 7 (N.of_nat (S n))) in
  (k = q \/ plus (leads buf) k q) -> plus (leads buf) q q ->
  forall kf, decode buf kf max_depth KAny o = OutOfFuel.
Proof.
  intros buf o n q Hh Hn k Hk Hq kf.
  assert (K : decodeKey buf kf k = OutOfFuel).
  { assert (Hq' : plus (fun a b => key_next buf a = Some b) q q).
    { revert Hq. apply plus_iff. apply leads_key_next. }
    apply plus_chain in Hq' as [d Hd]. apply decodeKey_fuel.
    destruct (cycle_forever buf (S d) q kf ltac:(lia) Hd) as [r Hr].
    destruct Hk as [->|Hk]; [eauto|].
    assert (Hk' : plus (fun a b => key_next buf a = Some b) k q).
    { revert Hk. apply plus_iff. apply leads_key_next. }
    apply plus_chain in Hk' as [i Hi].
    apply (key_chain_prefix buf (S i + kf) kf k r); [|lia]. now rewrite key_chain_add, Hi. }
  rewrite <- (app_nil_r (header _ _)) in Hh.
  change max_depth with (S (pred max_depth)). generalize (pred max_depth). intros lvl. cbn [decode]. rewrite (ctrl_header _ _ _ _ _ Hh) by (lia || assumption). cbn [bind].
  change (7 =? tBool) with false. change (7 =? tMap) with true. cbv iota. rewrite Nat2N.id. cbn [map_loop].
  fold k. now rewrite K.
Qed.
(** Whenever a key is not decoded, there is a cycle. *)
Theorem C39_key_diverges_iff : forall buf o,
  (forall kf, decodeKey buf kf o = OutOfFuel) <->
  exists q, (o = q \/ plus (leads buf) o q) /\ plus (leads buf) q q.
Proof.
  intros buf o. split.
  - intros H. specialize (H (S (length buf))). apply decodeKey_fuel in H as [p H].
    destruct (key_chain_cycle buf _ o p H (le_n _)) as (i & d & q & Hd & C1 & C2). exists q.
    destruct d; [lia|]. apply chain_plus in C2. split.
    + destruct i; [left; now injection C1|]. right. apply chain_plus in C1. revert C1. apply plus_iff, key_next_leads.
    + revert C2. apply plus_iff, key_next_leads.
  - intros (q & Ho & Hq) kf.
    assert (Hq' : plus (fun a b => key_next buf a = Some b) q q).
    { revert Hq. apply plus_iff. apply leads_key_next. }
    apply plus_chain in Hq' as [d Hd]. apply decodeKey_fuel.
    destruct (cycle_forever buf (S d) q kf ltac:(lia) Hd) as [r Hr].
    destruct Ho as [->|Ho]; [eauto|].
    assert (Ho' : plus (fun a b => key_next buf a = Some b) o q).
    { revert Ho. apply plus_iff. apply leads_key_next. }
    apply plus_chain in Ho' as [i Hi].
    apply (key_chain_prefix buf (S i + kf) kf o r); [|lia]. now rewrite key_chain_add, Hi.
Qed.
(** Proper pointers are among those followed. *)
Theorem C39_points_followed : forall buf o p, points buf o p -> leads buf o p.
Proof. exact points_leads. Qed.

(** A three byte buffer: a map with one entry whose key is a pointer to itself. *)
Definition self_key : bytes := header 7 1 ++ [n2b 32; n2b 1].
Example C39_self_key_diverges : forall kf, decode self_key kf max_depth KAny 0 = OutOfFuel.
Proof.
  apply (C39_cyclic_key_diverges self_key 0 0 1); [reflexivity|reflexivity|left; reflexivity|].
  apply plus_one, C39_points_followed. exists [n2b 32; n2b 1]. split; [apply pt1; reflexivity|reflexivity].
Qed.
(** A value that is a pointer to itself is an error, not an endless loop. *)
Example C39_self_pointer : forall kf, decode [n2b 32; n2b 0] kf max_depth KAny 0 = Err ErrInvalidDb.
Proof.
  intros kf. unfold max_depth. generalize 513%nat. induction n; [reflexivity|].
  cbn [decode]. change (decodeCtrlData [n2b 32; n2b 0] 0) with (@Ok (N * N * N) (1, 0, 1)). cbn [bind].
  change (1 =? tBool) with false. change (1 =? tMap) with false. change (1 =? tPointer) with true. cbv iota.
  change (decodePointer [n2b 32; n2b 0] 0 1) with (@Ok (N * N) (0, 2)). cbn [bind]. now rewrite IHn.
Qed.
(** The hypothesis of C39_terminates holds for instance when the buffer has no pointers;
    here a one-string map. *)
Example C39_case : let buf := header 7 1 ++ header 2 1 ++ str "a" ++ header 2 1 ++ str "b" in
  (forall q, ~ plus (leads buf) q q) /\ decode buf 9 max_depth KAny 0 = Ok (VMap [(str "a", VStr (str "b"))], 5).
Proof.
  cbv zeta. set (buf := header 7 1 ++ header 2 1 ++ str "a" ++ header 2 1 ++ str "b"). split; [|vm_compute; reflexivity].
  assert (K : forall q p, leads buf q p -> False).
  { intros q p H. apply leads_key_next in H. assert (L := key_next_lt _ _ _ H). change (blen buf) with 5 in L.
    assert (q = 0 \/ q = 1 \/ q = 2 \/ q = 3 \/ q = 4) as [->|[->|[->|[->| ->]]]] by lia; vm_compute in H; discriminate. }
  intros q H. inversion H; subst; eapply K; eassumption.
Qed.

(** A 32-bit pointer whose unused low bits are 5, 6 or 7 is misread: the size classes of
    other types are applied to it.  Here the bytes 3d 00 00 00 05 (a 32-bit pointer to 5
    whose low bits are 101, which the format says to ignore) do not lead to 5. *)
Definition junk_pointer : bytes := [x3d; x00; x00; x00; x05; x41; x61].
Example C37_junk_pointer_misread :
  (forall kf lvl, decode junk_pointer kf lvl KAny 0 <> Ok (VStr (str "a"), 5)) /\
  (forall kf lvl, decode (x38 :: tl junk_pointer) kf (S (S lvl)) KAny 0 = Ok (VStr (str "a"), 5)).
Proof.
  split; intros kf lvl; [|reflexivity].
  destruct lvl; [discriminate|].
  cbn [decode]. change (decodeCtrlData junk_pointer 0) with (@Ok (N * N * N) (1, 29, 2)). cbn [bind].
  change (1 =? tBool) with false. change (1 =? tMap) with false. change (1 =? tPointer) with true. cbv iota.
  destruct (decodePointer junk_pointer 29 2) as [[p o]| | |] eqn:E; cbn [bind]; try discriminate.
  assert (Eo : o = 6) by (vm_compute in E; congruence). rewrite Eo.
  destruct (decode junk_pointer kf lvl KAny p) as [[v o']| | |]; cbn [bind]; congruence.
Qed.

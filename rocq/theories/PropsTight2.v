(** Completions of C08 (ranges that end at the all-ones address) and C17 (which texts the
    data section holds).  Vocabulary: Spec.v, SpecIpdb.v. *)
From Verif Require Import Base NetIP IpNet Spec IpNetProofs IpNetProofs2.
From Verif Require Import Ipdb SpecIpdb WriterProofs PackProofs PropsIpdb PropsFacade2.
Open Scope N_scope.

(** C08: the second range may end at the all-ones address, as long as the receiver does not
    reach beyond it (always so for sixteen-byte spellings). *)
Theorem C08_second_allones : forall r ip r2 ok r', wf_range r -> wf_range r2 -> valid_ip ip ->
  ~ all_ones (rEnd r) -> all_ones (rEnd r2) -> addr (rEnd r) <= addr (rEnd r2) -> CommonRange r ip r2 = (ok, r') ->
  (ok = true <-> in_range r (addr ip) /\ in_range r2 (addr ip)) /\
  (ok = true -> forall a, in_range r' a <-> in_range r a /\ in_range r2 a) /\
  (ok = false -> r' = r).
Proof.
  intros r ip r2 ok r' [A1 A2 A3] [B1 B2 B3] Vi O1 O2 Le. unfold CommonRange, in_range.
  rewrite !IPLess_addr by auto using NextIP_valid. rewrite NextIP_addr by assumption.
  replace (addr (rEnd r2) <? addr (rEnd r)) with false by lia.
  destruct (_ || _) eqn:E.
  { intros H. injection H as <- <-. split; [split; [discriminate|]|split; [discriminate|reflexivity]].
    intros [X Y]. exfalso. apply orb_prop in E. lia. }
  apply orb_false_elim in E as [E1 E2].
  destruct (addr (rStart r) <? addr (rStart r2)) eqn:E3;
  (destruct (Contains _ _ ip) eqn:E5; cbn [negb]; intros H; injection H as <- <-; cbn [rStart rEnd];
   [apply Contains_spec in E5; [|assumption..]; split; [split; [lia|reflexivity]|];
    split; [intros _ a; lia|discriminate]
   |split; [split; [discriminate|]|split; [discriminate|reflexivity]];
    intros [X Y]; exfalso; rewrite <- Bool.not_true_iff_false in E5; apply E5; apply Contains_spec; (assumption || lia)]).
Qed.
Print Assumptions C08_second_allones.

(** C08, finding: a receiver that ends at the all-ones address has nothing in common with any
    range that does not start at the very first address of that spelling, whatever the address. *)
Theorem C08_receiver_allones : forall r ip r2, wf_range r -> wf_range r2 -> all_ones (rEnd r) ->
  (if (length (rEnd r) =? 4)%nat then v4base else 0) < addr (rStart r2) -> CommonRange r ip r2 = (false, r).
Proof.
  intros r ip r2 [A1 A2 A3] [B1 B2 B3] O1 Lt. unfold CommonRange.
  rewrite (IPLess_addr (NextIP (rEnd r))) by auto using NextIP_valid. rewrite NextIP_addr_ones by assumption.
  replace (_ <? addr (rStart r2)) with true by lia. rewrite orb_true_r. reflexivity.
Qed.
Print Assumptions C08_receiver_allones.

(** Both cases occur: [2::, ffff:..:ffff] against [1::, 3::], in both orders. *)
Definition r_high : Range := mkRange (x00 :: x02 :: repeat x00 14) (repeat xff 16).
Definition r_mid : Range := mkRange (x00 :: x01 :: repeat x00 14) (x00 :: x03 :: repeat x00 14).
Example C08_allones_case :
  wf_range r_high /\ wf_range r_mid /\ all_ones (rEnd r_high) /\ ~ all_ones (rEnd r_mid) /\
  fst (CommonRange r_mid (x00 :: x02 :: repeat x00 14) r_high) = true /\
  fst (CommonRange r_high (x00 :: x02 :: repeat x00 14) r_mid) = false.
Proof.
  split; [constructor; cbn; try (right; reflexivity); vm_compute; discriminate|].
  split; [constructor; cbn; try (right; reflexivity); vm_compute; discriminate|].
  split; [reflexivity|]. split; [vm_compute; discriminate|]. split; reflexivity.
Qed.

(* ------------------------------------------------------------------ *)

Lemma assoc_cons (k d : bytes) (o : Z) (h : list (bytes * Z)) :
  assoc k ((d, o) :: h) <> None <-> k = d \/ assoc k h <> None.
Proof.
  cbn [assoc]. destruct (bytes_eqb_spec d k) as [->|N].
  - split; [auto|discriminate].
  - split; [auto|]. intros [->|H]; [congruence|assumption].
Qed.
Lemma insert_hash w n v w' e : wCont w = None -> insert w n v = Ok (w', e) ->
  wCont w' = None /\
  forall s, assoc s (wHash w') <> None <-> assoc s (wHash w) <> None \/ (e = None /\ s = join x09 v).
Proof.
  intros C. unfold insert. destruct (mask_size (nMask n)) as [mask ?].
  destruct (Nodes (wNode w) (nIP n) mask) as [[[[nodes node] bit] ok]| | |]; cbn [bind]; try discriminate.
  cbn [wMeta wHash wChunk wCont]. destruct (negb ok).
  { intros H. injection H as <- <-. cbn. split; [assumption|]. intros s. split; [auto|]. intros [H|[H _]]; [auto|discriminate]. }
  destruct (nget nodes node bit) as [x| | |]; cbn [bind]; try discriminate. destruct (0 <? x)%Z.
  { intros H. injection H as <- <-. cbn. split; [assumption|]. intros s. split; [auto|]. intros [H|[H _]]; [auto|discriminate]. }
  rewrite C. cbn [conv_values bind]. unfold Fields.
  destruct (assoc (join x09 v) (wHash w)) as [off|] eqn:A; cbv beta iota zeta;
    (destruct (nset nodes node bit _) as [nd| | |]; cbn [bind]; try discriminate);
    intros H; injection H as <- <-; cbn [wCont wHash]; (split; [first [assumption|reflexivity]|]); intros s.
  - split; [auto|]. intros [H|[_ ->]]; [assumption|congruence].
  - rewrite assoc_cons. intuition.
Qed.
Lemma insert_all_hash rows : forall w w', wCont w = None -> insert_all w rows = Ok w' ->
  forall s, assoc s (wHash w') <> None <->
    assoc s (wHash w) <> None \/
    exists pre row post w0 w1, rows = pre ++ row :: post /\ insert_all w pre = Ok w0 /\
      insert w0 (cidr row) (fvals row) = Ok (w1, None) /\ s = join x09 (fvals row).
Proof.
  induction rows as [|r rows IH]; intros w w' C E s.
  - cbn in E. injection E as <-. split; [auto|]. intros [H|[pre [row [post [w0 [w1 [H _]]]]]]]; [assumption|].
    destruct pre; discriminate.
  - cbn [insert_all] in E. destruct (insert w (cidr r) (fvals r)) as [[w2 e]| | |] eqn:I; cbn [bind] in E; try discriminate.
    destruct (insert_hash _ _ _ _ _ C I) as [C2 H2]. rewrite (IH w2 w' C2 E s), H2. split.
    + intros [[H|[-> ->]]|[pre [row [post [w0 [w1 [X [Y Z]]]]]]]]; [auto| |]; right.
      * exists [], r, rows, w, w2. cbn. auto.
      * exists (r :: pre), row, post, w0, w1. rewrite X. cbn [insert_all app]. rewrite I. cbn [bind]. auto.
    + intros [H|[pre [row [post [w0 [w1 [X [Y [Z T]]]]]]]]]; [auto|]. destruct pre as [|p pre].
      * cbn in X, Y. injection X as <- <-. injection Y as <-. left. right.
        rewrite I in Z. split; congruence.
      * cbn [app] in X. injection X as <- X. cbn [insert_all] in Y. rewrite I in Y. cbn [bind] in Y.
        right. exists pre, row, post, w0, w1. auto.
Qed.

(** C17: the data section holds, once each, the texts of exactly the rows that were accepted. *)
Theorem C17_exactly_the_accepted : forall now ipd bs w,
  Forall2 net_ok (dIps ipd) bs -> plain_columns (dFields ipd) ->
  insert_all (pack_writer now ipd) (dIps ipd) = Ok w ->
  exists l, NoDup l /\
    wChunk w = flat_map (fun s => be_enc 2 (N.of_nat (length s) mod 65536) ++ s) l /\
    forall s, In s l <->
      exists pre row post w0 w1, dIps ipd = pre ++ row :: post /\
        insert_all (pack_writer now ipd) pre = Ok w0 /\
        insert w0 (cidr row) (fvals row) = Ok (w1, None) /\ s = join x09 (fvals row).
Proof.
  intros now ipd bs w HR HC E. destruct (pack_winv now ipd bs HR HC) as [w' [P [E' [W _]]]].
  rewrite E in E'. injection E' as <-. destruct (hi_list _ _ (wi_h _ _ _ W)) as [l [Nd [El Il]]].
  exists l. split; [assumption|]. split; [exact El|]. intros s. rewrite Il.
  rewrite (insert_all_hash (dIps ipd) (pack_writer now ipd) w).
  - split; [intros [H|H]; [exfalso; apply H; reflexivity|exact H]|auto].
  - apply pack_writer_cont; assumption.
  - exact E.
Qed.
Print Assumptions C17_exactly_the_accepted.

(** Four rows: the second has the text of the first, the third lies inside the first and is
    refused, the fourth replaces the second: two texts in the file. *)
Definition once_ipd : IpData := mkData [str "country"] (mkVersion 1 0 0 [] [] [])
  [ mkRaw (mkNet [x01; x00; x00; x00] [xff; xff; x00; x00]) [str "CN"];
    mkRaw (mkNet [x02; x00; x00; x00] [xff; xff; x00; x00]) [str "CN"];
    mkRaw (mkNet [x01; x00; x01; x00] [xff; xff; xff; x00]) [str "JP"];
    mkRaw (mkNet [x02; x00; x00; x00] [xff; xff; x00; x00]) [str "US"] ].
Example C17_accepted_case : exists w bs,
  Forall2 net_ok (dIps once_ipd) bs /\ plain_columns (dFields once_ipd) /\
  insert_all (pack_writer 0 once_ipd) (dIps once_ipd) = Ok w /\
  wChunk w = x00 :: x02 :: str "CN" ++ x00 :: x02 :: str "US".
Proof.
  destruct (insert_all (pack_writer 0 once_ipd) (dIps once_ipd)) as [w| | |] eqn:E; try (vm_compute in E; discriminate).
  exists w, [mkBlock (v4base + 0x01000000) 16; mkBlock (v4base + 0x02000000) 16; mkBlock (v4base + 0x01000100) 8; mkBlock (v4base + 0x02000000) 16].
  split.
  { repeat (constructor; [constructor;
    [ constructor; [left; reflexivity|reflexivity|vm_compute; discriminate|vm_compute; reflexivity|vm_compute; reflexivity]
    | vm_compute; reflexivity | vm_compute; reflexivity ]|]). constructor. }
  split; [intros f [<-|[]]; vm_compute; intuition discriminate|]. split; [reflexivity|].
  assert (match insert_all (pack_writer 0 once_ipd) (dIps once_ipd) with Ok w => wChunk w | _ => [] end
          = x00 :: x02 :: str "CN" ++ x00 :: x02 :: str "US") as H by (vm_compute; reflexivity).
  rewrite E in H. exact H.
Qed.

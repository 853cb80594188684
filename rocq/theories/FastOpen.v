(** Equations used to evaluate concrete ipdb files: lookups do not depend on the bit cache
    that newReaderFromBytes builds, so the cases beside the theorems need not build it. *)
From Verif Require Import Base NetIP IpNet Spec Inf Ipdb Export Bits TrieProofs WriterProofs ReaderProofs.
Open Scope Z_scope.

Definition nocache (r : Reader) : Reader :=
  mkReader (rFileSize r) (rNodeCount r) (rV4offset r) (rMeta r) (rData r) (rCont r) None.

Lemma search_nocache r ip bc : rinv r -> length (bits ip) = bc -> (bc = 32 \/ bc = 128)%nat ->
  search (nocache r) ip bc = search r ip bc.
Proof.
  intros H L Hbc. rewrite (search_walk r) by assumption. unfold search. cbn [nocache rCache rNodeCount rData rV4offset].
  unfold readDepth. rewrite readDepth_loop_walk by lia. rewrite Nat.sub_0_r, <- L. cbn [skipn]. rewrite firstn_all.
  destruct (rwalk _ _ (bits ip) _) as [[n k]| | |]; reflexivity.
Qed.
Lemma find0_nocache r ip : rinv r -> find0 (nocache r) ip = find0 r ip.
Proof.
  intros H. unfold find0. cbn [nocache rMeta].
  change (resolve (nocache r)) with (resolve r).
  destruct (to4 ip) as [|x y] eqn:E; cbn [is_nil negb].
  - destruct (to16 ip) as [|x y] eqn:E2; cbn [is_nil negb]; [reflexivity|]. destruct (HasIPv6 (rMeta r)); [|reflexivity].
    rewrite search_nocache; [reflexivity|assumption| |right; reflexivity].
    rewrite bits_length, <- E2, to16_length'; [reflexivity|congruence].
  - destruct (HasIPv4 (rMeta r)); [|reflexivity]. rewrite search_nocache; [reflexivity|assumption| |left; reflexivity].
    rewrite bits_length, <- E, to4_length; [reflexivity|congruence].
Qed.
Lemma findMap_nocache r ip l : rinv r -> findMap (nocache r) ip l = findMap r ip l.
Proof. intros H. unfold findMap, find1. rewrite find0_nocache by assumption. reflexivity. Qed.

(** newReaderFromBytes without the cache. *)
Section Fast.
Variable unmarshal : bytes -> option MetaData.
Definition fast_open (data : bytes) : res Reader :=
  let* h := slice data 0 4 in
  let metaLength := Z.of_N (val h) in
  if Z.of_nat (length data) <? 4 + metaLength then Err ErrFileSize
  else
    let* mb := zslice data 4 (4 + metaLength) in
    match unmarshal mb with
    | None => Err ErrJson
    | Some meta =>
        if (length (mLanguages meta) =? 0)%nat || (length (mFields meta) =? 0)%nat then Err ErrMetaData
        else if negb (Z.of_nat (length data) =? 4 + metaLength + mTotalSize meta) then Err ErrFileSize
        else
          let* body := zslice data (4 + metaLength) (Z.of_nat (length data)) in
          let nc := mNodeCount meta in
          let cont := offset_of FieldContinentCode (mFields meta) in
          if HasIPv4 meta then
            let* v4 := v4walk body nc 96 0 0 in
            Ok (mkReader (Z.of_nat (length data)) nc v4 meta body cont None)
          else Ok (mkReader (Z.of_nat (length data)) nc 0 meta body cont None)
    end.
Lemma fast_open_ok data r : newReaderFromBytes unmarshal data = Ok r -> fast_open data = Ok (nocache r).
Proof.
  unfold newReaderFromBytes, fast_open. intros H.
  destruct (slice data 0 4) as [h| | |]; cbn [bind] in H |- *; try discriminate.
  destruct (_ <? _); [discriminate|].
  destruct (zslice data 4 _) as [mb| | |]; cbn [bind] in H |- *; try discriminate.
  destruct (unmarshal mb) as [meta|]; [|discriminate].
  destruct (_ || _); [discriminate|]. destruct (negb _); [discriminate|].
  destruct (zslice data _ _) as [body| | |]; cbn [bind] in H |- *; try discriminate.
  destruct (HasIPv4 meta) eqn:E4.
  - destruct (v4walk _ _ _ _ _) as [v4| | |]; cbn [bind] in H |- *; try discriminate.
    destruct (initBitsCache body (mNodeCount meta) v4) as [cache| | |]; cbn [bind] in H; try discriminate.
    injection H as <-. reflexivity.
  - injection H as <-. reflexivity.
Qed.

Lemma build_loop_ext find find' values fuel : (forall ip, find ip = find' ip) ->
  forall m, build_loop find values fuel m = build_loop find' values fuel m.
Proof.
  intros H. induction fuel as [|k IH]; intros m; [reflexivity|]. cbn [build_loop]. rewrite H.
  destruct (find' m) as [[n info]| | |]; cbn [bind]; try reflexivity.
  destruct (values info); cbn [bind]; try reflexivity. destruct (LastIP n) as [l| | |]; cbn [bind]; try reflexivity.
  destruct (IsAllMask l); [reflexivity|]. destruct (NextStart n) as [x| | |]; cbn [bind]; try reflexivity. rewrite IH. reflexivity.
Qed.
Definition fast_dump (fuel : nat) (data : bytes) (ept : option Exporter) : res IpData :=
  let* db := fast_open data in
  let* ' (fields, rows) :=
    BuildIPData fuel CommonFieldsMap (mFields (rMeta db)) ept (version db) (fun ip => findMap db ip (str "CN")) in
  Ok (mkData fields (version db) rows).
Lemma fast_dump_ok fuel data ept r : newReaderFromBytes unmarshal data = Ok r ->
  dump unmarshal fuel data ept = fast_dump fuel data ept.
Proof.
  intros O. unfold dump, fast_dump. rewrite O, (fast_open_ok _ _ O). cbn [bind nocache rMeta].
  change (version (nocache r)) with (version r). unfold BuildIPData.
  rewrite (build_loop_ext (fun ip => findMap (nocache r) ip (str "CN")) (fun ip => findMap r ip (str "CN"))); [reflexivity|].
  intros ip. apply findMap_nocache. eapply open_rinv. eassumption.
Qed.
End Fast.

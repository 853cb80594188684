(** C60: an awdb file written in the format is opened and answered as written.  The
    vocabulary is that of SpecAw (values in a buffer) and SpecAwTree (the search tree). *)
From Verif Require Import Base Spec Bits Inf AwDecode SpecAw AwDecodeProofs PropsAwDecode IpNetProofs IpNetProofs2 AwTree SpecAwTree AwTreeProofs AwIterProofs PropsAwTree PropsAwQuery.
Open Scope N_scope.

(** ** Skipping a value *)
Lemma skip_more buf n m o k : nextValueOffset buf n o k <> OutOfFuel -> nextValueOffset buf (n + m) o k = nextValueOffset buf n o k.
Proof.
  revert o k. induction n; intros o k H; [exfalso; now apply H|]. cbn [Nat.add nextValueOffset] in *.
  destruct (k =? 0); [reflexivity|].
  destruct (decodeCtrlData buf o) as [[[t s] o1]| | |]; cbn [bind] in *; try reflexivity.
  destruct (t =? tPointer).
  { destruct (decodePointer buf s o1) as [[p o2]| | |]; cbn [bind] in *; try reflexivity. now apply IHn. }
  destruct (t =? tMap); [now apply IHn|]. destruct (t =? tSlice); [now apply IHn|]. destruct (t =? tBool); now apply IHn.
Qed.
(** [skips buf o o']: one value fewer to skip takes from o to o'. *)
Definition skips (buf : bytes) (o o' : N) : Prop :=
  forall j, exists n, forall f, nextValueOffset buf (n + f) o (j + 1) = nextValueOffset buf f o' j.
Definition skipsn (buf : bytes) (c o o' : N) : Prop :=
  forall j, exists n, forall f, nextValueOffset buf (n + f) o (j + c) = nextValueOffset buf f o' j.
Lemma skips_sized buf o t (bs : bytes) : holds buf o (header t (len bs) ++ bs) -> 1 <= t <= 15 -> len bs < size_limit ->
  t <> 1 -> t <> 7 -> t <> 11 -> t <> 14 -> skips buf o (o + len (header t (len bs) ++ bs)).
Proof.
  intros H T L T1 T2 T3 T4 j. exists 1%nat. intros f. cbn [Nat.add nextValueOffset].
  destruct (N.eqb_spec (j + 1) 0); [lia|]. rewrite (ctrl_header _ _ _ _ _ H T L). cbn [bind].
  destruct (N.eqb_spec t tPointer); [contradiction|]. destruct (N.eqb_spec t tMap); [contradiction|].
  destruct (N.eqb_spec t tSlice); [contradiction|]. destruct (N.eqb_spec t tBool); [contradiction|].
  rewrite len_app. f_equal; lia.
Qed.
Lemma skips_pointer buf o p bs : pointer_to p bs -> holds buf o bs -> skips buf o (o + len bs).
Proof.
  intros P H j. exists 1%nat. intros f. cbn [Nat.add nextValueOffset]. destruct (N.eqb_spec (j + 1) 0); [lia|].
  destruct (ctrl_pointer _ _ _ _ P H) as (s & -> & E). cbn [bind]. change (tPointer =? tPointer) with true. cbv iota. rewrite E. cbn [bind].
  f_equal; lia.
Qed.
Lemma skips_key buf o s o' : key_at buf o s o' -> skips buf o o'.
Proof.
  intros [o1 s1 L H|o1 p bs s1 o2 P H _].
  - apply (skips_sized buf o1 2 s1 H); try lia; assumption.
  - now apply skips_pointer with p.
Qed.
Lemma skipsn_0 buf o : skipsn buf 0 o o.
Proof. intros j. exists 0%nat. intros f. cbn [Nat.add]. f_equal. lia. Qed.
Lemma skipsn_S buf c o o1 o2 : skips buf o o1 -> skipsn buf c o1 o2 -> skipsn buf (c + 1) o o2.
Proof.
  intros A B j. destruct (A (j + c)) as [n1 H1]. destruct (B j) as [n2 H2]. exists (n1 + n2)%nat. intros f.
  rewrite <- Nat.add_assoc, N.add_assoc, H1, H2. reflexivity.
Qed.
Scheme enc_ind2 := Induction for enc_at Sort Prop
  with entries_ind2 := Induction for entries_at Sort Prop
  with items_ind2 := Induction for items_at Sort Prop.
Lemma enc_skips : forall buf d o v o', enc_at buf d o v o' -> skips buf o o'.
Proof.
  intros buf. apply (enc_ind2 buf (fun _ o _ o' _ => skips buf o o')
    (fun _ o m o' _ => skipsn buf (2 * N.of_nat (length m)) o o') (fun _ o l o' _ => skipsn buf (N.of_nat (length l)) o o')).
  - intros d o s L H. apply (skips_sized buf o 2 s H); try lia; assumption.
  - intros d o s L H. apply (skips_sized buf o 4 s H); try lia; assumption.
  - intros t d o bs T H. apply (skips_sized buf o t bs H); try lia. unfold len, size_limit. lia.
  - intros d o bs T H. apply (skips_sized buf o 10 bs H); try lia. unfold len, size_limit. lia.
  - intros d o bs T H. apply (skips_sized buf o 8 bs H); try lia. unfold len, size_limit. lia.
  - intros d o bs T H. assert (E : len bs = 8) by (unfold len; lia). rewrite <- E in *. apply (skips_sized buf o 3 bs H); try lia. rewrite E. unfold size_limit. lia.
  - intros d o bs T H. assert (E : len bs = 4) by (unfold len; lia). rewrite <- E in *. apply (skips_sized buf o 15 bs H); try lia. rewrite E. unfold size_limit. lia.
  - intros d o b H j. exists 1%nat. intros f. cbn [Nat.add nextValueOffset]. destruct (N.eqb_spec (j + 1) 0); [lia|].
    rewrite <- (app_nil_r (header 14 _)) in H. rewrite (ctrl_header _ _ _ _ _ H) by (destruct b; unfold size_limit; lia). cbn [bind].
    change (14 =? tPointer) with false. change (14 =? tMap) with false. change (14 =? tSlice) with false. change (14 =? tBool) with true. cbv iota.
    f_equal; lia.
  - intros d o m o2 L H _ IH j. destruct (IH j) as [n Hn]. exists (S n). intros f. cbn [Nat.add nextValueOffset]. destruct (N.eqb_spec (j + 1) 0); [lia|].
    rewrite <- (app_nil_r (header 7 _)) in H. rewrite (ctrl_header _ _ _ _ _ H) by lia. cbn [bind].
    change (7 =? tPointer) with false. change (7 =? tMap) with true. cbv iota.
    rewrite <- Hn. f_equal. lia.
  - intros d o m o2 L H _ IH j. destruct (IH j) as [n Hn]. exists (S n). intros f. cbn [Nat.add nextValueOffset]. destruct (N.eqb_spec (j + 1) 0); [lia|].
    rewrite <- (app_nil_r (header 11 _)) in H. rewrite (ctrl_header _ _ _ _ _ H) by lia. cbn [bind].
    change (11 =? tPointer) with false. change (11 =? tMap) with false. change (11 =? tSlice) with true. cbv iota.
    rewrite <- Hn. f_equal. lia.
  - intros d o p bs v o2 P H _ _. now apply skips_pointer with p.
  - intros. apply skipsn_0.
  - intros d o k o1 v o2 m o3 K _ IH1 _ IH2. cbn [length]. replace (2 * N.of_nat (S (length m))) with (2 * N.of_nat (length m) + 1 + 1) by lia.
    eapply skipsn_S; [eapply skips_key; exact K|]. eapply skipsn_S; [exact IH1|exact IH2].
  - intros. apply skipsn_0.
  - intros d o v o1 l o2 _ IH1 _ IH2. cbn [length]. replace (N.of_nat (S (length l))) with (N.of_nat (length l) + 1) by lia.
    eapply skipsn_S; [exact IH1|exact IH2].
Qed.
(** A value that is skipped ends where it was written to end. *)
Theorem C60_skip : forall buf d o v o' sf, enc_at buf d o v o' -> (length buf + 1 < sf)%nat -> nextValueOffset buf sf o 1 = Ok o'.
Proof.
  intros buf d o v o' sf H L. destruct (enc_skips buf d o v o' H 0) as [n Hn]. assert (Hn1 : nextValueOffset buf (n + 1) o 1 = Ok o') by exact (Hn 1%nat).
  assert (A : nextValueOffset buf (sf + (n + 1)) o 1 = nextValueOffset buf sf o 1) by (apply skip_more, nextValueOffset_over; unfold blen; lia).
  rewrite <- A, Nat.add_comm, skip_more; [exact Hn1|congruence].
Qed.
Print Assumptions C60_skip.

(** ** Decoding into a typed member *)
(** The text, number or list of texts that a value stands for. *)
Definition number_of (v : value) (n : N) : Prop := v = VUint n \/ exists z, v = VInt z /\ n = Z.to_N (z mod 2 ^ 64)%Z.
Definition string_of (v : value) (s : bytes) : Prop := v = VStr s.
Definition strings_are (v : value) (l : list bytes) : Prop := v = VList (map VStr l).

Definition has_kind (kd : kind) (v : value) : Prop :=
  match kd with
  | KAny => True
  | KUint => exists n, number_of v n
  | KString => exists s, v = VStr s
  | KMapString => exists m, v = VMap m /\ Forall (fun kv => exists s, snd kv = VStr s) m
  | KListString => exists l, v = VList l /\ Forall (fun x => exists s, x = VStr s) l
  end.
Definition conv (kd : kind) (v : value) : value :=
  match kd, v with KUint, VInt z => VUint (Z.to_N (z mod 2 ^ 64)%Z) | _, _ => v end.
Lemma conv_string v : conv KString v = v. Proof. reflexivity. Qed.

Lemma sized_kind buf kd t s o v o' : decodeSized buf KAny t s o = Ok (v, o') -> has_kind kd v ->
  decodeSized buf kd t s o = Ok (conv kd v, o').
Proof.
  unfold decodeSized. intros H K. destruct (blen buf <? o + s); [discriminate H|].
  destruct (cut buf o (o + s)) as [bs| | |]; cbn [bind] in *.
  2-4: repeat match goal with H : (if ?c then _ else _) = _ |- _ => destruct c end; discriminate H.
  cbn [any kstring kuint] in H.
  repeat match type of H with (if ?c then _ else _) = _ => destruct c; try discriminate H end;
  injection H as <- <-; destruct kd; cbn [has_kind] in K; try reflexivity; exfalso;
  repeat match goal with
  | K : exists _, _ |- _ => destruct K
  | K : _ /\ _ |- _ => destruct K
  | K : number_of _ _ |- _ => destruct K
  end; discriminate.
Qed.
Lemma map_strings buf kf l n : (forall o v o', decode buf kf l KAny o = Ok (v, o') -> (exists s, v = VStr s) -> decode buf kf l KString o = Ok (v, o')) ->
  forall o m o', map_loop buf kf (decode buf kf l KAny) n o = Ok (m, o') -> Forall (fun kv => exists s, snd kv = VStr s) m ->
  map_loop buf kf (decode buf kf l KString) n o = Ok (m, o').
Proof.
  intros IH. induction n; intros o m o' H F; cbn [map_loop] in *; [assumption|].
  destruct (decodeKey buf kf o) as [[k o1]| | |]; try discriminate H. cbn [bind] in *.
  destruct (decode buf kf l KAny o1) as [[v o2]| | |] eqn:E; try discriminate H. cbn [bind] in *.
  destruct (map_loop buf kf (decode buf kf l KAny) n o2) as [[m' o3]| | |] eqn:E2; try discriminate H. cbn [bind] in H. injection H as <- <-.
  inversion F as [|x y F1 F2]; subst. rewrite (IH _ _ _ E F1). cbn [bind]. rewrite (IHn _ _ _ E2 F2). reflexivity.
Qed.
Lemma list_strings buf kf l n : (forall o v o', decode buf kf l KAny o = Ok (v, o') -> (exists s, v = VStr s) -> decode buf kf l KString o = Ok (v, o')) ->
  forall o m o', list_loop (decode buf kf l KAny) n o = Ok (m, o') -> Forall (fun x => exists s, x = VStr s) m ->
  list_loop (decode buf kf l KString) n o = Ok (m, o').
Proof.
  intros IH. induction n; intros o m o' H F; cbn [list_loop] in *; [assumption|].
  destruct (decode buf kf l KAny o) as [[v o2]| | |] eqn:E; try discriminate H. cbn [bind] in *.
  destruct (list_loop (decode buf kf l KAny) n o2) as [[m' o3]| | |] eqn:E2; try discriminate H. cbn [bind] in H. injection H as <- <-.
  inversion F as [|x y F1 F2]; subst. rewrite (IH _ _ _ E F1). cbn [bind]. rewrite (IHn _ _ _ E2 F2). reflexivity.
Qed.
Lemma decode_kind buf kf lvl : forall kd o v o', decode buf kf lvl KAny o = Ok (v, o') -> has_kind kd v ->
  decode buf kf lvl kd o = Ok (conv kd v, o').
Proof.
  induction lvl; intros kd o v o' H K; [discriminate H|]. cbn [decode] in *.
  assert (IHs : forall o v o', decode buf kf lvl KAny o = Ok (v, o') -> (exists s, v = VStr s) -> decode buf kf lvl KString o = Ok (v, o')).
  { intros p w p' A B. exact (IHlvl KString p w p' A B). }
  destruct (decodeCtrlData buf o) as [[[t s] o1]| | |]; try discriminate H. cbn [bind] in *.
  assert (Bad : forall P : Prop, ~ has_kind kd v -> P) by (intros P N; now destruct (N K)).
  destruct (t =? tBool).
  { destruct (1 <? s); [discriminate H|]. cbn [any] in H. injection H as <- <-. destruct kd; try reflexivity; exfalso; cbn [has_kind] in K;
    repeat match goal with K : exists _, _ |- _ => destruct K | K : _ /\ _ |- _ => destruct K | K : number_of _ _ |- _ => destruct K end; discriminate. }
  destruct (t =? tMap).
  { destruct (map_loop buf kf (decode buf kf lvl KAny) (N.to_nat s) o1) as [[m o2]| | |] eqn:E; try discriminate H. cbn [bind] in H. injection H as <- <-.
    destruct kd; try (exfalso; cbn [has_kind] in K;
    repeat match goal with K : exists _, _ |- _ => destruct K | K : _ /\ _ |- _ => destruct K | K : number_of _ _ |- _ => destruct K end; discriminate).
    - rewrite ?E. reflexivity.
    - destruct K as (m' & Em & F). injection Em as <-. rewrite (map_strings _ _ _ _ IHs _ _ _ E F). reflexivity. }
  destruct (t =? tPointer).
  { destruct (decodePointer buf s o1) as [[p o2]| | |]; try discriminate H. cbn [bind] in *.
    destruct (decode buf kf lvl KAny p) as [[w o3]| | |] eqn:E; try discriminate H. cbn [bind] in *. injection H as -> <-.
    rewrite (IHlvl kd _ _ _ E K). reflexivity. }
  destruct (t =? tSlice).
  { destruct (list_loop (decode buf kf lvl KAny) (N.to_nat s) o1) as [[m o2]| | |] eqn:E; try discriminate H. cbn [bind] in H. injection H as <- <-.
    destruct kd; try (exfalso; cbn [has_kind] in K;
    repeat match goal with K : exists _, _ |- _ => destruct K | K : _ /\ _ |- _ => destruct K | K : number_of _ _ |- _ => destruct K end; discriminate).
    - rewrite ?E. reflexivity.
    - destruct K as (m' & Em & F). injection Em as <-. rewrite (list_strings _ _ _ _ IHs _ _ _ E F). reflexivity. }
  now apply sized_kind.
Qed.

(** ** The metadata *)
(** What the map m written as metadata says: its last entry with that key, or nothing. *)
Definition says {X} (m : list (bytes * value)) (k : bytes) (P : value -> X -> Prop) (zero x : X) : Prop :=
  (exists v, last_assigned m k v /\ P v x) \/ (~ In k (map fst m) /\ x = zero).
Record describes (m : list (bytes * value)) (a : metadata) : Prop := {
  ds_build : says m (str "build_epoch") number_of 0 (aBuild a);
  ds_type : says m (str "database_type") string_of [] (aType a);
  ds_version : says m (str "ip_version") number_of 0 (aIPVersion a);
  ds_languages : says m (str "languages") strings_are [] (aLanguages a);
  ds_nodes : says m (str "node_count") number_of 0 (aNodeCount a);
  ds_record : says m (str "record_size") number_of 0 (aRecordSize a) }.
(** The entries the reader knows have values of their types; others are arbitrary. *)
Record meta_typed (m : list (bytes * value)) : Prop := {
  mt_number : forall k v, In (k, v) m -> In k (map str ["binary_format_major_version"; "binary_format_minor_version"; "build_epoch"; "ip_version"; "node_count"; "record_size"]%string) ->
    exists n, number_of v n;
  mt_type : forall v, In (str "database_type", v) m -> exists s, string_of v s;
  mt_languages : forall v, In (str "languages", v) m -> exists l, strings_are v l;
  mt_description : forall v, In (str "description", v) m -> exists d, v = VMap d /\ Forall (fun kv => exists s, string_of (snd kv) s) d }.

Definition mstep (a : metadata) (kv : bytes * value) : metadata :=
  match meta_field (fst kv) with None => a | Some (kd, set) => set a (conv kd (snd kv)) end.
Ltac meta_cases k := unfold meta_field;
  repeat match goal with |- context [bytes_eqb k ?s] => destruct (bytes_eqb_spec k s) as [->|?] end.
Lemma typed_kind m k v kd set : meta_typed m -> In (k, v) m -> meta_field k = Some (kd, set) -> has_kind kd v.
Proof.
  intros [T1 T2 T3 T4] I. meta_cases k; intros E; try discriminate E; injection E as <- <-; cbn [has_kind];
  try (eapply T1; [eassumption|cbn; tauto]).
  - now apply T2.
  - destruct (T4 v I) as (d & -> & F). eauto.
  - destruct (T3 v I) as (l & El). unfold strings_are in El. subst v. exists (map VStr l). split; [reflexivity|]. apply Forall_forall. intros x Hx. apply in_map_iff in Hx as (s & <- & _). eauto.
Qed.
Lemma struct_ok buf kf sf d : (length buf < kf)%nat -> (length buf + 1 < sf)%nat -> forall m o o' a, entries_at buf d o m o' ->
  (forall k v kd set, In (k, v) m -> meta_field k = Some (kd, set) -> has_kind kd v) ->
  struct_loop buf kf sf d (length m) o a = Ok (fold_left mstep m a, o').
Proof.
  intros Hk Hs. induction m as [|[k v] m IH]; intros o o' a H T.
  { inversion H; subst. reflexivity. }
  inversion H as [|? ? ? o1 ? o2 ? ? K V M]; subst. cbn [length struct_loop fold_left].
  rewrite (key_at_enough _ _ _ _ _ K Hk). cbn [bind]. unfold mstep at 2. cbn [fst snd].
  assert (T' : forall k v kd set, In (k, v) m -> meta_field k = Some (kd, set) -> has_kind kd v) by (intros; eapply T; [right; eassumption|eassumption]).
  destruct (meta_field k) as [[kd set]|] eqn:E.
  - rewrite (decode_kind buf kf d kd o1 v o2); [|now apply enc_at_decode|eapply T; [left; reflexivity|exact E]]. cbn [bind]. now apply IH.
  - rewrite (C60_skip _ _ _ _ _ _ V Hs). cbn [bind]. now apply IH.
Qed.
Lemma decodeMeta_ok buf kf sf d o m o' : (length buf < kf)%nat -> (length buf + 1 < sf)%nat -> enc_at buf d o (VMap m) o' -> meta_typed m ->
  decodeMeta buf kf sf d o = Ok (fold_left mstep m aw_meta0).
Proof.
  intros Hk Hs H T. remember (VMap m) as v eqn:Ev. revert m Ev T.
  induction H; intros m' Ev T; try discriminate Ev.
  - injection Ev as <-. cbn [decodeMeta].
    match goal with H : holds _ _ (header 7 _) |- _ => rewrite <- (app_nil_r (header 7 _)) in H; rewrite (ctrl_header _ _ _ _ _ H) by lia end. cbn [bind].
    change (7 =? tMap) with true. cbv iota. rewrite Nnat.Nat2N.id.
    erewrite struct_ok; [reflexivity|assumption|assumption|eassumption|]. intros. eapply typed_kind; eassumption.
  - cbn [decodeMeta]. match goal with P : pointer_to _ _, H : holds _ _ _ |- _ => destruct (ctrl_pointer _ _ _ _ P H) as (s & -> & E) end. cbn [bind].
    change (tPointer =? tMap) with false. change (tPointer =? tPointer) with true. cbv iota. rewrite E. cbn [bind]. auto.
Qed.
Lemma says_fold {X} (f : metadata -> X) key (P : value -> X -> Prop) zero m : f aw_meta0 = zero ->
  (forall a k v, k <> key -> f (mstep a (k, v)) = f a) -> (forall a v, In (key, v) m -> P v (f (mstep a (key, v)))) ->
  says m key P zero (f (fold_left mstep m aw_meta0)).
Proof.
  intros E0 H1 H2. induction m as [|[k v] m IH] using rev_ind; [right; auto|]. rewrite fold_left_app. cbn [fold_left].
  destruct (list_eq_dec Byte.byte_eq_dec k key) as [->|N].
  - left. exists v. split; [exists m, []; auto|]. apply H2. apply in_or_app. right. left. reflexivity.
  - rewrite H1 by assumption. destruct IH as [(w & (m1 & m2 & -> & N2) & Pw)|[N2 Ez]].
    + intros a w I. apply H2. apply in_or_app. now left.
    + left. exists w. split; [|assumption]. exists m1, (m2 ++ [(k, v)]). rewrite <- app_assoc. split; [reflexivity|].
      rewrite map_app, in_app_iff. cbn. intuition.
    + right. split; [|assumption]. rewrite map_app, in_app_iff. cbn. intuition.
Qed.
Lemma number_conv v : (exists n, number_of v n) -> number_of v (the_uint (conv KUint v)).
Proof. intros [n [->|(z & -> & ->)]]; [left; reflexivity|right; exists z; auto]. Qed.
Lemma fold_describes m : meta_typed m -> describes m (fold_left mstep m aw_meta0).
Proof.
  intros [T1 T2 T3 T4]. constructor; apply says_fold; try reflexivity;
  try (intros a k v N; unfold mstep; cbn [fst snd]; meta_cases k; cbn [aBuild aType aIPVersion aLanguages aNodeCount aRecordSize]; try reflexivity; contradiction).
  - intros a v I. apply number_conv. apply (T1 _ _ I). cbn; tauto.
  - intros a v I. destruct (T2 v I) as [s Es]. unfold string_of in *. subst v. reflexivity.
  - intros a v I. apply number_conv. apply (T1 _ _ I). cbn; tauto.
  - intros a v I. destruct (T3 v I) as [l El]. unfold strings_are in *. subst v. cbn. f_equal. rewrite !map_map. apply map_ext. reflexivity.
  - intros a v I. apply number_conv. apply (T1 _ _ I). cbn; tauto.
  - intros a v I. apply number_conv. apply (T1 _ _ I). cbn; tauto.
Qed.

(** ** The file *)
(** Node table, 16 bytes, data section, marker, metadata.  The marker and the metadata are
    within the last 2000 bytes, and the marker does not occur again. *)
Record written (rs : N) (tbl : list (N * N)) (D : bytes) (m : list (bytes * value)) (data : bytes) : Prop := {
  wr_rs : record_size rs;
  wr_fits : Forall (fits rs) tbl;
  wr_size : N.of_nat (length tbl) * rs < 2 ^ 64;
  wr_typed : meta_typed m;
  wr_record : says m (str "record_size") number_of 0 rs;
  wr_count : says m (str "node_count") number_of 0 (N.of_nat (length tbl));
  wr_file : exists sep M o, length sep = 16%nat /\ data = flat_map (node_bytes rs) tbl ++ sep ++ D ++ marker ++ M /\
    enc_at M max_depth 0 (VMap m) o /\ (forall x y, M <> x ++ marker ++ y) /\
    (length (marker ++ M) <= 2000)%nat /\ (2000 <= length data)%nat }.

Lemma prefix_app p s : is_prefix p s = true -> exists t, s = p ++ t.
Proof.
  revert s. induction p as [|a p IH]; intros s H; [exists s; reflexivity|]. destruct s as [|b s]; cbn in H; [discriminate|].
  apply andb_prop in H as [H1 H2]. destruct (byte_eqb_spec a b) as [->|]; [|discriminate H1]. destruct (IH s H2) as [t ->]. exists t. reflexivity.
Qed.
Lemma lastIndex_none s : (forall x y, s <> x ++ marker ++ y) -> lastIndex s marker = None.
Proof.
  induction s as [|b s IH]; intros H; [reflexivity|]. cbn [lastIndex]. rewrite IH.
  - destruct (is_prefix marker (b :: s)) eqn:E; [|reflexivity]. apply prefix_app in E as [t E]. destruct (H [] t E).
  - intros x y E. apply (H (b :: x) y). now rewrite E.
Qed.
Lemma lastIndex_pre pre s i : lastIndex s marker = Some i -> lastIndex (pre ++ s) marker = Some (length pre + i)%nat.
Proof. intros H. induction pre as [|b pre IH]; [exact H|]. cbn [app lastIndex]. rewrite IH. reflexivity. Qed.
Lemma lastIndex_marker pre M : (forall x y, M <> x ++ marker ++ y) -> lastIndex (pre ++ marker ++ M) marker = Some (length pre).
Proof.
  intros H. apply lastIndex_none in H. rewrite (lastIndex_pre pre _ 0%nat); [f_equal; lia|].
  assert (E : marker = [xab;xcd;xef;x69;x70;x70;x6c;x75;x73;x33;x36;x30;x2e;x63;x6f;x6d]) by reflexivity.
  rewrite E in *. cbn [app lastIndex]. rewrite H. reflexivity.
Qed.
Lemma says_fun {X} m k (P : value -> X -> Prop) z x y : (forall v a b, P v a -> P v b -> a = b) -> says m k P z x -> says m k P z y -> x = y.
Proof.
  intros F [(v & L & Px)|[N ->]] [(w & L' & Py)|[N' ->]]; try reflexivity.
  - assert (v = w); [|subst; eauto]. destruct L as (m1 & m2 & -> & N1), L' as (m3 & m4 & E & N2).
    revert m3 E. induction m1 as [|q m1 IH]; intros m3 E.
    + destruct m3 as [|q' m3]; cbn [app] in E; injection E as E1 E2; [congruence|]. exfalso. apply N1. rewrite E2, map_app, in_app_iff. right. left. reflexivity.
    + destruct m3 as [|q' m3]; cbn [app] in E; injection E as E1 E2.
      * exfalso. apply N2. rewrite <- E2, map_app, in_app_iff. right. left. reflexivity.
      * now apply (IH m3).
  - exfalso. apply N'. destruct L as (m1 & m2 & -> & _). rewrite map_app, in_app_iff. right. left. reflexivity.
  - exfalso. apply N. destruct L' as (m1 & m2 & -> & _). rewrite map_app, in_app_iff. right. left. reflexivity.
Qed.
Lemma number_fun v a b : number_of v a -> number_of v b -> a = b.
Proof. intros [->|(z & -> & ->)] [E|(z' & E & ->)]; congruence. Qed.
Lemma slice_mid {A} (a b c : list A) lo hi : lo = length a -> hi = (length a + length b)%nat -> slice (a ++ b ++ c) lo hi = Ok b.
Proof.
  intros -> ->. unfold slice. rewrite !app_length. destruct (Nat.leb_spec (length a) (length a + length b)); [|lia].
  destruct (Nat.leb_spec (length a + length b) (length a + (length b + length c))); [|lia]. cbn [andb].
  rewrite skipn_app, skipn_all, Nat.sub_diag. cbn [app skipn]. rewrite firstn_app.
  replace (length a + length b - length a)%nat with (length b) by lia. rewrite firstn_all, Nat.sub_diag. cbn [firstn]. now rewrite app_nil_r.
Qed.
Lemma table_length rs tbl : record_size rs -> N.of_nat (length (flat_map (node_bytes rs) tbl)) = N.of_nat (length tbl) * rs / 4.
Proof.
  intros R. rewrite quarter by assumption. induction tbl as [|[l r] tbl IH]; [reflexivity|]. cbn [flat_map length]. rewrite app_length.
  assert (N.of_nat (length (node_bytes rs (l, r))) = rs / 4) as E; [|lia].
  unfold node_bytes. destruct R as [->|[->| ->]]; cbn [N.eqb Pos.eqb]; rewrite !app_length, ?be_enc_length; reflexivity.
Qed.

(** Opening such a file gives its table, its data section and its metadata. *)
Theorem C60_open : forall rs tbl D m data, written rs tbl D m data ->
  exists r, FromBytes data = Ok r /\ reads r tbl /\ wData r = D /\ wBuf r = data /\ describes m (wMeta r).
Proof.
  intros rs tbl D m data [Rs Fi Sz Ty Re Co (sep & M & o & Ls & Ed & En & Nm & Lm & Ld)].
  set (nodes := flat_map (node_bytes rs) tbl) in *.
  assert (Dm := fold_describes m Ty). set (a := fold_left mstep m aw_meta0) in *.
  assert (Er : aRecordSize a = rs) by (apply (says_fun m (str "record_size") number_of 0); [exact number_fun|apply Dm|assumption]).
  assert (Ec : aNodeCount a = N.of_nat (length tbl)) by (apply (says_fun m (str "node_count") number_of 0); [exact number_fun|apply Dm|assumption]).
  set (front := nodes ++ sep ++ D) in *.
  assert (Ed' : data = front ++ marker ++ M) by (rewrite Ed; unfold front; now rewrite <- !app_assoc).
  assert (Lf : length data = (length front + length (marker ++ M))%nat) by (rewrite Ed' at 1; apply app_length).
  assert (Em : skipn (length data - 2000) data = skipn (length data - 2000) front ++ marker ++ M).
  { rewrite Ed' at 2. rewrite skipn_app. replace (length data - 2000 - length front)%nat with 0%nat by lia. reflexivity. }
  assert (Tn : N.of_nat (length nodes) = N.of_nat (length tbl) * rs / 4) by now apply table_length.
  assert (F : exists r, FromBytes data = Ok r /\ wNodes r = nodes /\ wData r = D /\ wBuf r = data /\ wMeta r = a /\
    (aIPVersion a = 6 -> reach tbl 0 (repeat false (wV4Depth r)) (wV4Start r) /\ ((wV4Depth r = 96)%nat \/ (wV4Depth r < 96)%nat /\ ~ inner tbl (wV4Start r))) /\
    (aIPVersion a <> 6 -> wV4Start r = 0)).
  { unfold FromBytes. destruct (Nat.ltb_spec (length data) 2000); [lia|]. rewrite Em, lastIndex_marker by assumption.
    set (pre := skipn (length data - 2000) front). assert (Lp : (length pre + (length data - 2000) = length front)%nat) by (unfold pre; rewrite skipn_length; lia).
    replace (skipn (length pre + length marker) (pre ++ marker ++ M)) with M.
    2:{ rewrite app_assoc, skipn_app, app_length, Nat.sub_diag. rewrite skipn_all2 by (rewrite app_length; lia). reflexivity. }
    rewrite (decodeMeta_ok M (S (length M)) (S (S (length M))) max_depth 0 m o) by (try assumption; lia). fold a. cbn [bind].
    rewrite Er, Ec. unfold u64. rewrite N.mod_small by assumption. rewrite <- Tn, Lp.
    assert (Lf2 : length front = (length nodes + 16 + length D)%nat) by (unfold front; rewrite !app_length; lia).
    destruct (N.ltb_spec (N.of_nat (length front)) (N.of_nat (length nodes) + 16)); [lia|].
    replace (slice data (N.to_nat (N.of_nat (length nodes) + 16)) (length front)) with (Ok D).
    2:{ replace data with ((nodes ++ sep) ++ D ++ marker ++ M) by (rewrite Ed; now rewrite <- !app_assoc). symmetry. apply slice_mid; rewrite app_length; lia. }
    cbn [bind].
    replace (slice data 0 (N.to_nat (N.of_nat (length nodes)))) with (Ok nodes).
    2:{ rewrite Ed. change (nodes ++ sep ++ D ++ marker ++ M) with ([] ++ nodes ++ (sep ++ D ++ marker ++ M)). symmetry. apply slice_mid; [reflexivity|cbn [length]; lia]. }
    cbn [bind]. assert ((rs =? 24) || (rs =? 28) || (rs =? 32) = true) as -> by (destruct Rs as [->|[->| ->]]; reflexivity).
    destruct (N.eqb_spec (aIPVersion a) 6) as [E6|E6].
    - destruct (v4_ok rs tbl Rs Fi 96 0 0) as (v & j & E & B & Rv & St); [lia|constructor|]. unfold nodes. rewrite E. cbn [bind].
      eexists. split; [reflexivity|]. cbn [wNodes wData wBuf wMeta wV4Depth wV4Start]. repeat (split; [reflexivity|]). split; [|congruence].
      intros _. split; [assumption|]. destruct St as [St|St]; [left; lia|]. destruct (Nat.eq_dec j 96); [left; assumption|]. right. split; [lia|assumption].
    - eexists. split; [reflexivity|]. cbn [wNodes wData wBuf wMeta wV4Depth wV4Start]. repeat (split; [reflexivity|]). split; [congruence|reflexivity]. }
  destruct F as (r & F & E1 & E2 & E3 & E4 & V6 & V4). exists r. split; [assumption|].
  split; [|split; [assumption|split; [assumption|rewrite E4; assumption]]].
  constructor; rewrite ?E4, ?Er; auto.
Qed.
Print Assumptions C60_open.

(** ** Looking up *)
Lemma v4_nodes r tbl : reads r tbl -> (aIPVersion (wMeta r) = 6 -> exists v, reach tbl 0 (repeat false 96) v) -> has_v4_nodes r.
Proof.
  intros [_ _ _ _ _ R6] H E6. destruct (R6 E6) as [R [D|[L N]]]; [assumption|]. exfalso. destruct (H E6) as [v Hv].
  replace 96%nat with (wV4Depth r + (96 - wV4Depth r))%nat in Hv by lia. rewrite repeat_app in Hv.
  destruct (reach_stop _ _ _ _ _ _ R N Hv) as [E _]. replace (96 - wV4Depth r)%nat with (S (95 - wV4Depth r)) in E by lia. discriminate E.
Qed.
Lemma enc_inside buf d o v o' : enc_at buf d o v o' -> o < blen buf.
Proof.
  intros H. destruct (N.ltb_spec o (blen buf)) as [|G]; [assumption|exfalso].
  assert (E := proj1 (enc_at_decode buf (S (length buf)) (Nat.lt_succ_diag_r _)) d o v o' H).
  destruct d; [discriminate E|]. cbn [decode] in E. unfold decodeCtrlData in E.
  destruct (N.leb_spec (blen buf) o); [discriminate E|lia].
Qed.
Lemma walk_pointer r ip net rec : LookupNetwork r ip = Ok (net, rec) ->
  exists p n ip', lookupPointer r ip = Ok (p, n, ip') /\ (p = 0 -> rec = None) /\ (p <> 0 -> exists w, rec = Some w /\ retrieveData r p = Ok w).
Proof.
  unfold LookupNetwork. destruct (lookupPointer r ip) as [[[p n] ip']| | |]; try discriminate. cbn [bind].
  destruct (N.eqb_spec p 0) as [->|N].
  - intros E. injection E as _ <-. exists 0, n, ip'. repeat split; congruence.
  - destruct (retrieveData r p) as [w| | |] eqn:Er; try discriminate. cbn [bind]. intros E. injection E as _ <-. exists p, n, ip'.
    split; [reflexivity|]. split; [congruence|]. eauto.
Qed.

Lemma resolve_bound r p off : resolveDataPointer r p = Ok off -> off < N.of_nat (length (wBuf r)).
Proof.
  unfold resolveDataPointer. cbv zeta. generalize (Z.to_N ((Z.of_N p - Z.of_N (aNodeCount (wMeta r)) - 16) mod 2 ^ 64)) as x. intros x.
  destruct (N.leb_spec (N.of_nat (length (wBuf r))) x); intros E; [discriminate E|]. injection E as <-. assumption.
Qed.
Lemma retrieve_split r p : retrieveData r p = (let* off := resolveDataPointer r p in Decode r off).
Proof. unfold Decode. unfold retrieveData. reflexivity. Qed.
Lemma retrieve_inv r p w : retrieveData r p = Ok w -> exists off, resolveDataPointer r p = Ok off /\ Decode r off = Ok w.
Proof. rewrite retrieve_split. destruct (resolveDataPointer r p) as [off| | |]; cbn [bind]; [eauto|discriminate..]. Qed.
Lemma pointer_walk r tbl ip c j v : reads r tbl -> has_v4_nodes r -> valid_ip ip -> own_spelling ip c ->
  (length c = 16%nat -> aIPVersion (wMeta r) <> 4) -> (j <= 8 * length c)%nat -> reach tbl 0 (tree_bits (aIPVersion (wMeta r)) c j) v ->
  data_at tbl v -> lookupPointer r ip = Ok (v, j, c).
Proof.
  intros R Hv V Own HV Hj Hr Nd. assert (Own' := Own). destruct Own' as (Vc & Ac & Lc).
  assert (Ec := canon_own ip c V Own). apply (start_bits r tbl c j v R Vc Hv) in Hr.
  assert (HV' : is_v4 (addr ip) \/ aIPVersion (wMeta r) <> 4).
  { destruct Vc as [Vc|Vc]; [left; now apply Lc | right; auto]. }
  destruct (lookup_char r tbl R ip V HV') as (v' & j' & Hj' & Rv' & St' & E). cbv zeta in *. rewrite Ec in *.
  assert (W : j' = j /\ v' = v).
  { unfold data_at in Nd. rewrite bits_length in *. apply (walk_same tbl (start r c) c c j v j' v'); try assumption; try reflexivity; try (rewrite bits_length; assumption). unfold inner. lia. }
  destruct W as [-> ->]. rewrite E. unfold data_at in Nd.
  destruct (N.eqb_spec v (N.of_nat (length tbl))); [lia|]. destruct (N.ltb_spec (N.of_nat (length tbl)) v); [|lia]. reflexivity.
Qed.

(** The four ways of asking give the same answer: by LookupNetwork, by Lookup, and by
    LookupOffset and Decode.  This is so for every open database. *)
Theorem C60_ways : forall r ip net rec, LookupNetwork r ip = Ok (net, rec) ->
  Lookup r ip = Ok rec /\
  (rec = None -> LookupOffset r ip = Ok (2 ^ 64 - 1)) /\
  (forall w, rec = Some w -> exists off, LookupOffset r ip = Ok off /\ off < N.of_nat (length (wBuf r)) /\ Decode r off = Ok w).
Proof.
  intros r ip net rec H. destruct (walk_pointer r ip net rec H) as (p & n & ip' & Ep & H0 & H1).
  unfold Lookup, LookupOffset. rewrite Ep. cbn [bind]. destruct (N.eqb_spec p 0) as [E0|N0].
  - rewrite (H0 E0) in *. split; [reflexivity|]. split; [reflexivity|]. discriminate.
  - destruct (H1 N0) as (w & -> & Er). rewrite Er. cbn [bind]. split; [reflexivity|]. split; [discriminate|]. intros w' E. injection E as <-.
    destruct (retrieve_inv _ _ _ Er) as (off & Eo & Ed). exists off. split; [exact Eo|]. split; [exact (resolve_bound _ _ _ Eo)|exact Ed].
Qed.
Print Assumptions C60_ways.

(** An address whose bits lead in the written table to the record of the value written at
    offset off of the data section is answered with that value. *)
Theorem C60_lookup : forall rs tbl D m data ver, written rs tbl D m data -> says m (str "ip_version") number_of 0 ver ->
  (ver = 6 -> exists v, reach tbl 0 (repeat false 96) v) ->
  exists r, FromBytes data = Ok r /\ aIPVersion (wMeta r) = ver /\
  forall ip c j p, valid_ip ip -> own_spelling ip c -> (length c = 16%nat -> ver <> 4) ->
    (j <= 8 * length c)%nat -> reach tbl 0 (tree_bits ver c j) p ->
    exists net b, net_is net b /\ aligned b /\ in_block b (addr ip) /\ length (nIP net) = length c /\ logsz b = 8 * N.of_nat (length c) - N.of_nat j /\
      (p = N.of_nat (length tbl) -> LookupNetwork r ip = Ok (net, None)) /\
      (forall off w o, p = N.of_nat (length tbl) + 16 + off -> enc_at D max_depth off w o ->
         LookupNetwork r ip = Ok (net, Some w) /\ LookupOffset r ip = Ok off).
Proof.
  intros rs tbl D m data ver W Sv H6. destruct (C60_open _ _ _ _ _ W) as (r & F & R & Ed & Eb & Ds).
  assert (Ev : aIPVersion (wMeta r) = ver) by (apply (says_fun m (str "ip_version") number_of 0); [exact number_fun|apply Ds|assumption]).
  exists r. split; [assumption|]. split; [assumption|]. intros ip c j p V Own H4 Hj Hr.
  assert (Hv : has_v4_nodes r) by (apply (v4_nodes r tbl R); rewrite Ev; assumption).
  rewrite <- Ev in Hr, H4.
  destruct (C35_lookup_walk r tbl ip c j p R Hv V Own H4 Hj Hr) as (net & b & N1 & N2 & N3 & N4 & N5 & K1 & K2 & _).
  exists net, b. repeat (split; [assumption|]).
  intros off w o Ep He. assert (Di : data_at tbl p) by (clear - Ep; unfold data_at; lia). specialize (K2 Di).
  assert (Io := enc_inside _ _ _ _ _ He). unfold blen in Io.
  assert (Lb : (length D <= length data)%nat) by (destruct W as [_ _ _ _ _ _ (sep & M & o2 & _ & -> & _)]; rewrite !app_length; lia).
  assert (S32 : p < 2 ^ 32).
  { destruct R as [R1 R2 _ _ _ _]. inversion Hr as [E|q n lr b0 _ En E]; [lia|].
    assert (Fl : fits (aRecordSize (wMeta r)) lr) by (apply (proj1 (Forall_forall _ _) R2); eapply nth_error_In; eassumption).
    destruct Fl as [F1 F2]. assert (2 ^ aRecordSize (wMeta r) <= 2 ^ 32) by (apply N.pow_le_mono_r; [lia|]; destruct R1 as [->|[->| ->]]; lia).
    destruct b0; lia. }
  assert (Ro : resolveDataPointer r p = Ok off).
  { unfold resolveDataPointer. rewrite (rd_count _ _ R), Ep. 
    replace (Z.to_N _) with off. 2:{ rewrite Z.mod_small; [lia|]. change (2 ^ 64)%Z with 18446744073709551616%Z. change (2 ^ 32) with 4294967296 in S32. lia. }
    rewrite Eb. destruct (N.leb_spec (N.of_nat (length data)) off); [lia|reflexivity]. }
  assert (Rt : retrieveData r p = Ok w).
  { unfold retrieveData. rewrite Ro. cbn [bind]. rewrite Ed, (C37_decode_encoded D off w o (S (length D)) He) by lia. reflexivity. }
  rewrite Rt in K2. cbn [bind] in K2. split; [exact K2|].
  unfold LookupOffset. rewrite (pointer_walk r tbl ip c j p R Hv V Own H4 Hj Hr Di). cbn [bind].
  destruct (N.eqb_spec p 0); [lia|exact Ro].
Qed.
Print Assumptions C60_lookup.

(** From the file to the answer: the addresses of one network of the written tree get the
    texts of the record written for it; where the tree has no record, the query crashes
    (C40).  The file opens for queries if it is an IPv6 database or has a record of
    texts for 8.8.8.8. *)
Theorem C60_query : forall rs tbl D m data ver, written rs tbl D m data -> says m (str "ip_version") number_of 0 ver ->
  (ver = 6 -> exists v, reach tbl 0 (repeat false 96) v) ->
  (ver = 6 \/ exists j off rec o, (j <= 32)%nat /\ reach tbl 0 (firstn j (bits [x08; x08; x08; x08])) (N.of_nat (length tbl) + 16 + off) /\
     enc_at D max_depth off (VMap rec) o /\ text_record rec) ->
  exists r, aw_open data = Ok r /\ aIPVersion (wMeta r) = ver /\ describes m (wMeta r) /\
  forall ip c j off rec o, valid_ip ip -> own_spelling ip c -> (length c = 16%nat -> ver <> 4) -> (j <= 8 * length c)%nat ->
    reach tbl 0 (tree_bits ver c j) (N.of_nat (length tbl) + 16 + off) -> enc_at D max_depth off (VMap rec) o -> text_record rec ->
    exists info, aw_query r ip = Ok (info, j) /\
      text_at rec (str "country") (iCountry info) /\ text_at rec (str "province") (iProvince info) /\
      text_at rec (str "city") (iCity info) /\ text_at rec (str "isp") (iIsp info) /\
      text_at rec (str "asnumber") (iAsn info) /\ text_at rec (str "continent") (iContinent info) /\
      text_at rec (str "line") (iLine info) /\ iDistrict info = [].
Proof.
  intros rs tbl D m data ver W Sv H6 H8. destruct (C60_lookup _ _ _ _ _ _ W Sv H6) as (r & F & Ev & L).
  destruct (C60_open _ _ _ _ _ W) as (r' & F' & _ & _ & _ & Ds). rewrite F in F'. injection F' as <-.
  exists r. split; [|split; [assumption|split; [assumption|]]].
  - unfold aw_open. rewrite F. cbn [bind]. assert (C : aw_check r = Ok tt); [|rewrite C; reflexivity]. unfold aw_check, aw_iptype. rewrite Ev.
    destruct (N.eqb_spec ver 4) as [E4|E4], (N.eqb_spec ver 6) as [E6|E6]; try lia; cbn [Z.odd]; try reflexivity;
    (destruct H8 as [H8|(j & off & rec & o & Hj & Hr & He & Ht)]; [contradiction|];
     assert (Own : own_spelling (IPv4 x08 x08 x08 x08) [x08; x08; x08; x08]) by
       (split; [left; reflexivity|split; [reflexivity|split; [intros _; vm_compute; split; [discriminate|reflexivity]|reflexivity]]]);
     assert (Hr' : reach tbl 0 (tree_bits ver [x08; x08; x08; x08] j) (N.of_nat (length tbl) + 16 + off)) by
       (unfold tree_bits; destruct (N.eqb_spec ver 6); [contradiction|exact Hr]);
     destruct (L (IPv4 x08 x08 x08 x08) [x08; x08; x08; x08] j _ (or_intror eq_refl) Own ltac:(discriminate) Hj Hr') as (net & b & _ & _ & _ & _ & _ & _ & K);
     destruct (K off _ o eq_refl He) as [K1 _];
     destruct (C40_fields r _ net rec K1 Ht) as (info & Q & _); unfold aw_query in Q;
     destruct (aw_find r (IPv4 x08 x08 x08 x08)) as [[cn rc]| | |]; try discriminate Q; reflexivity).
  - intros ip c j off rec o V Own H4 Hj Hr He Ht. destruct (L ip c j _ V Own H4 Hj Hr) as (net & b & N1 & _ & _ & N4 & N5 & _ & K).
    destruct (K off _ o eq_refl He) as [K1 _]. destruct (C40_fields r ip net rec K1 Ht) as (info & Q & T).
    exists info. split; [|exact T]. rewrite Q. f_equal. f_equal.
    rewrite (mask_size_net net b N1). cbn [fst]. lia.
Qed.
Print Assumptions C60_query.

(** ** An example *)
Lemma prefix_refl p y : is_prefix p (p ++ y) = true.
Proof. induction p as [|a p IH]; [reflexivity|]. cbn. now rewrite byte_eqb_refl. Qed.
Lemma lastIndex_occurs x y : lastIndex (x ++ marker ++ y) marker <> None.
Proof.
  induction x as [|b x IH]; cbn [app].
  - assert (P := prefix_refl marker y). destruct (marker ++ y) as [|b r] eqn:E; [discriminate E|]. cbn [lastIndex].
    destruct (lastIndex r marker); [discriminate|]. rewrite P. discriminate.
  - cbn [lastIndex]. destruct (lastIndex (x ++ marker ++ y) marker); [discriminate|]. destruct IH; reflexivity.
Qed.
(** Metadata with members the reader does not know, a nested one among them, before and
    between those it knows; ip_version is given twice. *)
Definition ex_m : list (bytes * value) :=
  [(str "x", VMap [(str "p", VList [VUint 7; VBool true]); (str "q", VStr (str "text"))]);
   (str "ip_version", VUint 6); (str "record_size", VUint 24); (str "languages", VList [VStr (str "zh"); VStr (str "en")]);
   (str "y", VList []); (str "description", VMap [(str "en", VStr (str "example"))]);
   (str "node_count", VUint 1); (str "ip_version", VUint 4); (str "database_type", VStr (str "T")); (str "build_epoch", VInt 5)].
Definition ex_recA : value := VMap [(str "country", VStr (str "A")); (str "asnumber", VBytes (str "4134"))].
Definition ex_recB : value := VMap [(str "country", VStr (str "x")); (str "country", VStr (str "B"))].
Definition ex_D : bytes := encode ex_recA ++ encode ex_recB ++ repeat x00 2000.
Definition ex_tbl : list (N * N) := [(17, 17 + len (encode ex_recA))].
Definition ex_file : bytes := flat_map (node_bytes 24) ex_tbl ++ repeat x00 16 ++ ex_D ++ marker ++ encode (VMap ex_m).
Example C60_case : written 24 ex_tbl ex_D ex_m ex_file /\ says ex_m (str "ip_version") number_of 0 4 /\
  (exists r i, aw_open ex_file = Ok r /\ wMeta r = mkAwMeta 5 (str "T") 4 [str "zh"; str "en"] 1 24 /\
     aw_query r [x81; x02; x03; x04] = Ok (i, 1%nat) /\ iCountry i = str "B").
Proof.
  assert (En : enc_at (encode (VMap ex_m)) max_depth 0 (VMap ex_m) (len (encode (VMap ex_m)))).
  { rewrite <- (app_nil_r (encode (VMap ex_m))) at 1. apply (encode_at (VMap ex_m)) with (pre := []) (post := []).
    - cbn. unfold size_limit. repeat split; cbn; lia.
    - apply Nat.leb_le. vm_compute. reflexivity. }
  assert (S4 : says ex_m (str "ip_version") number_of 0 4).
  { left. exists (VUint 4). split; [|left; reflexivity]. exists (firstn 7 ex_m), (skipn 8 ex_m). split; [reflexivity|]. cbn. intuition discriminate. }
  assert (W : written 24 ex_tbl ex_D ex_m ex_file).
  { constructor.
    - now left.
    - repeat constructor; vm_compute; reflexivity.
    - vm_compute. reflexivity.
    - constructor.
      + intros k v I K. cbn [ex_m In] in I. repeat (destruct I as [I|I]; [assert (I1 := f_equal fst I); assert (I2 := f_equal snd I); cbn [fst snd] in I1, I2; clear I; subst k v;
          first [eexists; left; reflexivity | eexists; right; eexists; split; reflexivity | exfalso; cbn in K; intuition discriminate]|]). destruct I.
      + intros v I. cbn [ex_m In] in I. repeat (destruct I as [I|I]; [assert (I1 := f_equal fst I); assert (I2 := f_equal snd I); cbn [fst snd] in I1, I2; clear I; first [discriminate I1 | subst v; eexists; reflexivity]|]). destruct I.
      + intros v I. cbn [ex_m In] in I. repeat (destruct I as [I|I]; [assert (I1 := f_equal fst I); assert (I2 := f_equal snd I); cbn [fst snd] in I1, I2; clear I; first [discriminate I1 | subst v; exists [str "zh"; str "en"]; reflexivity]|]). destruct I.
      + intros v I. cbn [ex_m In] in I. repeat (destruct I as [I|I]; [assert (I1 := f_equal fst I); assert (I2 := f_equal snd I); cbn [fst snd] in I1, I2; clear I; first [discriminate I1 | subst v; eexists; split; [reflexivity|]; repeat constructor; eexists; reflexivity]|]). destruct I.
    - left. exists (VUint 24). split; [|left; reflexivity]. exists (firstn 2 ex_m), (skipn 3 ex_m). split; [reflexivity|]. cbn. intuition discriminate.
    - left. exists (VUint 1). split; [|left; reflexivity]. exists (firstn 6 ex_m), (skipn 7 ex_m). split; [reflexivity|]. cbn. intuition discriminate.
    - exists (repeat x00 16), (encode (VMap ex_m)), (len (encode (VMap ex_m))). split; [reflexivity|]. split; [reflexivity|]. split; [exact En|].
      split; [|split; apply Nat.leb_le; vm_compute; reflexivity].
      intros x y E. apply (lastIndex_occurs x y). rewrite <- E. vm_compute. reflexivity. }
  split; [exact W|]. split; [exact S4|].
  assert (R : match aw_open ex_file with Ok r => Some (wMeta r, match aw_query r [x81; x02; x03; x04] with Ok (i, n) => Some (iCountry i, n) | _ => None end) | _ => None end =
    Some (mkAwMeta 5 (str "T") 4 [str "zh"; str "en"] 1 24, Some (str "B", 1%nat))) by (vm_compute; reflexivity).
  destruct (aw_open ex_file) as [r| | |]; try discriminate R. injection R as R1 R2.
  destruct (aw_query r [x81; x02; x03; x04]) as [[i n]| | |] eqn:Q; try discriminate R2. injection R2 as R2 ->.
  exists r, i. auto.
Qed.

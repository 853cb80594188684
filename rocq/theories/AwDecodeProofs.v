(** Proofs about the awdb decoder (C37-C39). *)
From Coq Require ListDec.
From Verif Require Import Base AwDecode SpecAw.
Open Scope N_scope.
Local Arguments N.of_nat : simpl never.

Lemma holds_split buf o bs : holds buf o bs -> bs <> [] ->
  exists pre post, buf = pre ++ bs ++ post /\ N.of_nat (length pre) = o.
Proof.
  unfold holds. intros H Hn.
  assert (Hl : (N.to_nat o <= length buf)%nat).
  { destruct (Nat.le_gt_cases (N.to_nat o) (length buf)); [assumption|].
    rewrite skipn_all2, firstn_nil in H by lia. congruence. }
  exists (firstn (N.to_nat o) buf), (skipn (length bs) (skipn (N.to_nat o) buf)). split.
  - rewrite <- H at 1. rewrite firstn_skipn. symmetry. apply firstn_skipn.
  - rewrite firstn_length. lia.
Qed.
Lemma holds_intro pre bs post : holds (pre ++ bs ++ post) (N.of_nat (length pre)) bs.
Proof.
  unfold holds. rewrite Nat2N.id, skipn_app, skipn_all, Nat.sub_diag. cbn.
  now rewrite firstn_app, Nat.sub_diag, firstn_all, firstn_O, app_nil_r.
Qed.
Lemma len_app a b : len (a ++ b) = len a + len b.
Proof. unfold len. rewrite app_length. lia. Qed.
Lemma len_cons a (b : bytes) : len (a :: b) = 1 + len b.
Proof. unfold len. cbn. lia. Qed.
Lemma cut_holds buf o a b c : holds buf o (a ++ b ++ c) -> a <> [] ->
  cut buf (o + len a) (o + len a + len b) = Ok b /\ o + len a + len b <= blen buf.
Proof.
  intros H Hn. destruct (holds_split _ _ _ H) as (pre & post & -> & Ho); [now destruct a|].
  unfold cut, blen, len. split.
  - replace (pre ++ (a ++ b ++ c) ++ post) with ((pre ++ a) ++ b ++ (c ++ post)) by now rewrite <- !app_assoc.
    apply slice_app; rewrite ?app_length; lia.
  - rewrite !app_length. lia.
Qed.
Lemma at_holds buf o a x c : holds buf o (a ++ x :: c) ->
  at_ buf (o + len a) = Ok x /\ o + len a < blen buf.
Proof.
  intros H. destruct (holds_split _ _ _ H) as (pre & post & -> & Ho); [now destruct a|].
  unfold at_, idx, blen, len. split.
  - replace (pre ++ (a ++ x :: c) ++ post) with ((pre ++ a) ++ x :: (c ++ post)) by now rewrite <- !app_assoc.
    rewrite nth_error_app2, app_length by (rewrite ?app_length; lia).
    now replace (N.to_nat (o + N.of_nat (length a)) - (length pre + length a))%nat with O by lia.
  - rewrite !app_length. cbn. lia.
Qed.
Lemma at0_holds buf o x c : holds buf o (x :: c) -> at_ buf o = Ok x /\ o < blen buf.
Proof. intros H. destruct (at_holds buf o [] x c H) as [A B]. unfold len in *. cbn in *. now rewrite N.add_0_r in *. Qed.

Lemma uintFromBytes_val p bs : uintFromBytes p bs = p * 2 ^ (8 * N.of_nat (length bs)) + val bs.
Proof.
  unfold uintFromBytes. revert p. induction bs; intros p.
  - cbn. change (8 * N.of_nat 0) with 0. rewrite N.pow_0_r. lia.
  - cbn [fold_left val]. rewrite IHbs. cbn [length]. rewrite pow8_S. lia.
Qed.
Lemma uintFromBytes_0 bs : uintFromBytes 0 bs = val bs.
Proof. rewrite uintFromBytes_val. lia. Qed.

(** ** Control bytes *)
Lemma size_code_spec n s more : size_code n = (s, more) -> n < size_limit ->
  (s < 29 /\ n = s /\ more = []) \/
  (29 <= s < 32 /\ len more = s - 28 /\
   n = val more + (if s =? 29 then 29 else if s =? 30 then 285 else 65821)).
Proof.
  unfold size_code, size_limit. intros H Hn.
  destruct (N.ltb_spec n 29); [injection H as <- <-; left; auto|].
  destruct (N.ltb_spec n 285).
  { assert (s = 29) as -> by congruence. assert (more = be_enc 1 (n - 29)) as -> by congruence. right. unfold len. rewrite be_enc_length, val_be_enc.
    change (2 ^ (8 * N.of_nat 1)) with 256. cbn [N.eqb Pos.eqb].
    repeat split; try lia. }
  destruct (N.ltb_spec n 65821).
  { assert (s = 30) as -> by congruence. assert (more = be_enc 2 (n - 285)) as -> by congruence. right. unfold len. rewrite be_enc_length, val_be_enc.
    change (2 ^ (8 * N.of_nat 2)) with 65536. cbn [N.eqb Pos.eqb].
    repeat split; try lia. }
  assert (s = 31) as -> by congruence. assert (more = be_enc 3 (n - 65821)) as -> by congruence. right. unfold len. rewrite be_enc_length, val_be_enc.
  change (2 ^ (8 * N.of_nat 3)) with 16777216. cbn [N.eqb Pos.eqb].
  change (2 ^ 24) with 16777216 in Hn.
  repeat split; try lia.
Qed.
Lemma header_nonnil t n : header t n <> [].
Proof. unfold header. destruct (size_code n), (t <? 8); discriminate. Qed.

Lemma sizeFrom_ok buf o (a more : bytes) c s t n : holds buf o (a ++ more) -> a <> [] ->
  size_code n = (s, more) -> n < size_limit -> t <> 0 -> c mod 32 = s ->
  sizeFromCtrlByte buf c (o + len a) t = Ok (n, o + len a + len more).
Proof.
  intros Hh Ha Hs Hn Ht Hc. unfold sizeFromCtrlByte. rewrite Hc.
  destruct (N.eqb_spec t 0); [contradiction|].
  destruct (size_code_spec n s more Hs Hn) as [(H1 & H2 & ->)|(H1 & H2 & H3)].
  - destruct (N.ltb_spec s 29); [|lia]. unfold len. cbn. rewrite N.add_0_r. congruence.
  - destruct (N.ltb_spec s 29); [lia|].
    rewrite <- H2. rewrite <- (app_nil_r more) in Hh.
    destruct (cut_holds buf o a more [] Hh Ha) as [Hcut Hle].
    destruct (N.ltb_spec (blen buf) (o + len a + len more)); [lia|].
    destruct (N.eqb_spec s 29).
    + subst s. rewrite app_nil_r in Hh. destruct more as [|x [|]]; unfold len in H2; cbn [length] in H2; try lia.
      destruct (at_holds buf o a x [] Hh) as [-> _]. cbn [bind]. unfold len. cbn [length].
      f_equal. f_equal. cbn [val length] in H3. change (2 ^ (8 * N.of_nat 0)) with 1 in H3.
      rewrite H3. lia.
    + rewrite Hcut. cbn [bind]. rewrite uintFromBytes_0. destruct (s =? 30); f_equal; f_equal; lia.
Qed.

Lemma ctrl_header buf o t n (rest : bytes) : holds buf o (header t n ++ rest) -> 1 <= t <= 15 -> n < size_limit ->
  decodeCtrlData buf o = Ok (t, n, o + len (header t n)).
Proof.
  intros Hh Ht Hn.
  assert (Hh' : holds buf o (header t n)).
  { destruct (holds_split _ _ _ Hh) as (pre & post & -> & <-).
    - intro E. apply app_eq_nil in E. now apply (header_nonnil t n).
    - rewrite <- app_assoc. apply holds_intro. }
  clear Hh rest. unfold header in *. destruct (size_code n) as [s more] eqn:Es.
  assert (Hs : s < 32) by (destruct (size_code_spec _ _ _ Es Hn); lia).
  unfold decodeCtrlData. destruct (N.ltb_spec t 8).
  - destruct (at0_holds _ _ _ _ Hh') as [A B]. destruct (N.leb_spec (blen buf) o); [lia|].
    rewrite A. cbn [bind]. rewrite b2n_n2b, N.mod_small by lia.
    replace ((t * 32 + s) / 32) with t by lia. destruct (N.eqb_spec t 0); [lia|]. cbn [bind].
    replace (o + 1) with (o + len [n2b (t * 32 + s)]) by reflexivity.
    erewrite sizeFrom_ok; [| exact Hh' | discriminate | exact Es | exact Hn | lia |]; [| lia].
    cbn [bind]. rewrite len_cons. unfold len. cbn [length]. f_equal. f_equal. lia.
  - destruct (at0_holds _ _ _ _ Hh') as [A B]. destruct (N.leb_spec (blen buf) o); [lia|].
    rewrite A. cbn [bind]. rewrite b2n_n2b, N.mod_small by lia.
    replace (s / 32) with 0 by lia. cbn [N.eqb].
    destruct (at_holds buf o [n2b s] (n2b (t - 7)) more Hh') as [A2 B2].
    change (len [n2b s]) with 1 in *. destruct (N.leb_spec (blen buf) (o + 1)); [lia|].
    rewrite A2. cbn [bind]. rewrite b2n_n2b. rewrite (N.mod_small (t - 7)) by lia.
    replace ((t - 7 + 7) mod 256) with t by lia.
    replace (o + 1 + 1) with (o + len [n2b s; n2b (t - 7)]) by (unfold len; cbn; lia).
    erewrite sizeFrom_ok; [| exact Hh' | discriminate | exact Es | exact Hn | lia |]; [| lia].
    cbn [bind]. rewrite !len_cons. unfold len. cbn [length]. f_equal. f_equal. lia.
Qed.

(** ** Pointers *)
Lemma pointer_bytes p bs : pointer_to p bs -> exists c (more : bytes) size,
  bs = c :: more /\ b2n c = 32 + size /\ size < 29 /\ len more = (size / 8) mod 4 + 1 /\
  p = uintFromBytes (if len more =? 4 then 0 else size mod 8) more
      + (if len more =? 2 then 2048 else if len more =? 3 then 526336 else 0).
Proof.
  intros [H | q -> H | q -> H | H].
  - change (2 ^ 11) with 2048 in H.
    exists (n2b (32 + p / 256)), [n2b p], (p / 256). change (len [n2b p]) with 1.
    repeat split; try lia.
    + rewrite b2n_n2b, N.mod_small by lia. lia.
    + cbn [N.eqb Pos.eqb]. rewrite uintFromBytes_val. cbn [val length].
      change (8 * N.of_nat 1) with 8. change (2 ^ (8 * N.of_nat 0)) with 1. change (2 ^ 8) with 256. rewrite b2n_n2b. lia.
  - change (2 ^ 19) with 524288 in H. change (2 ^ 16) with 65536.
    exists (n2b (40 + q / 65536)), (be_enc 2 q), (8 + q / 65536).
    assert (El : len (be_enc 2 q) = 2) by (unfold len; now rewrite be_enc_length). rewrite El.
    repeat split; try lia.
    + rewrite b2n_n2b, N.mod_small by lia. lia.
    + cbn [N.eqb Pos.eqb]. rewrite uintFromBytes_val, val_be_enc, be_enc_length.
      change (2 ^ (8 * N.of_nat 2)) with 65536. lia.
  - change (2 ^ 27) with 134217728 in H. change (2 ^ 24) with 16777216.
    exists (n2b (48 + q / 16777216)), (be_enc 3 q), (16 + q / 16777216).
    assert (El : len (be_enc 3 q) = 3) by (unfold len; now rewrite be_enc_length). rewrite El.
    repeat split; try lia.
    + rewrite b2n_n2b, N.mod_small by lia. lia.
    + cbn [N.eqb Pos.eqb]. rewrite uintFromBytes_val, val_be_enc, be_enc_length.
      change (2 ^ (8 * N.of_nat 3)) with 16777216. lia.
  - exists (n2b 56), (be_enc 4 p), 24.
    assert (El : len (be_enc 4 p) = 4) by (unfold len; now rewrite be_enc_length). rewrite El.
    repeat split; try lia; try reflexivity.
    cbn [N.eqb Pos.eqb]. rewrite uintFromBytes_val, val_be_enc.
    change (2 ^ (8 * N.of_nat 4)) with (2 ^ 32). rewrite N.mod_small by assumption. lia.
Qed.
Lemma ctrl_pointer buf o p bs : pointer_to p bs -> holds buf o bs ->
  exists size, decodeCtrlData buf o = Ok (tPointer, size, o + 1) /\
    decodePointer buf size (o + 1) = Ok (p, o + len bs).
Proof.
  intros Hp Hh. destruct (pointer_bytes _ _ Hp) as (c & more & size & -> & Hc & Hs & Hl & ->).
  exists size. split.
  - unfold decodeCtrlData. destruct (at0_holds _ _ _ _ Hh) as [A B].
    destruct (N.leb_spec (blen buf) o); [lia|]. rewrite A. cbn [bind]. rewrite Hc.
    replace ((32 + size) / 32) with 1 by lia. cbn [N.eqb Pos.eqb bind].
    unfold sizeFromCtrlByte. replace ((32 + size) mod 32) with size by lia. cbn [N.eqb].
    destruct (N.ltb_spec size 29); [|lia]. reflexivity.
  - unfold decodePointer. rewrite <- Hl.
    rewrite <- (app_nil_r more) in Hh. change (c :: more ++ []) with ([c] ++ more ++ []) in Hh.
    destruct (cut_holds buf o [c] more [] Hh) as [Hcut Hle]; [discriminate|].
    change (len [c]) with 1 in *. destruct (N.ltb_spec (blen buf) (o + 1 + len more)); [lia|].
    rewrite Hcut. cbn [bind]. rewrite len_cons. f_equal. f_equal. lia.
Qed.

(** ** Keys.  A step from one key pointer to the next, as the decoder sees it. *)
Definition key_next (buf : bytes) (o : N) : option N :=
  match decodeCtrlData buf o with
  | Ok (t, size, o1) =>
      if t =? tPointer then
        match decodePointer buf size o1 with Ok (p, _) => Some p | _ => None end
      else None
  | _ => None
  end.
Fixpoint key_chain (buf : bytes) (n : nat) (o : N) : option N :=
  match n with O => Some o | S k => match key_next buf o with Some p => key_chain buf k p | None => None end end.

Lemma at_Ok buf i : i < blen buf -> exists b, at_ buf i = Ok b.
Proof.
  unfold at_, idx, blen. intros H. destruct (nth_error buf (N.to_nat i)) eqn:E; [eauto|].
  apply nth_error_None in E. lia.
Qed.
Lemma cut_Ok buf lo hi : lo <= hi -> hi <= blen buf ->
  exists bs, cut buf lo hi = Ok bs /\ len bs = hi - lo.
Proof.
  unfold cut, slice, blen, len. intros H1 H2.
  destruct (Nat.leb_spec (N.to_nat lo) (N.to_nat hi)); [|lia].
  destruct (Nat.leb_spec (N.to_nat hi) (length buf)); [|lia]. cbn [andb]. eexists. split; [reflexivity|].
  rewrite firstn_length, skipn_length. lia.
Qed.

(** Outcomes that are a value or an error. *)
Definition fine {A} (r : res A) : Prop := (exists a, r = Ok a) \/ (exists e, r = Err e).
Lemma fine_Ok {A} (a : A) : fine (Ok a). Proof. left; eauto. Qed.
Lemma fine_Err {A} e : fine (@Err A e). Proof. right; eauto. Qed.
#[export] Hint Resolve fine_Ok fine_Err : core.

Lemma sizeFrom_fine buf c o t : o <= blen buf ->
  (exists e, sizeFromCtrlByte buf c o t = Err e) \/
  (exists s o1, sizeFromCtrlByte buf c o t = Ok (s, o1) /\ o <= o1 <= blen buf).
Proof.
  intros Ho. unfold sizeFromCtrlByte. destruct (t =? 0); [right; do 2 eexists; split; [reflexivity|lia]|].
  destruct (N.ltb_spec (c mod 32) 29); [right; do 2 eexists; split; [reflexivity|lia]|].
  destruct (N.ltb_spec (blen buf) (o + (c mod 32 - 28))); [left; eauto|].
  destruct (N.eqb_spec (c mod 32) 29).
  - destruct (at_Ok buf o) as [b ->]; [lia|]. cbn [bind]. right. do 2 eexists. split; [reflexivity|lia].
  - destruct (cut_Ok buf o (o + (c mod 32 - 28))) as (bs & -> & _); [lia|lia|]. cbn [bind].
    destruct (c mod 32 =? 30); right; do 2 eexists; (split; [reflexivity|lia]).
Qed.
Lemma ctrl_fine buf o :
  (exists e, decodeCtrlData buf o = Err e) \/
  (exists t s o1, decodeCtrlData buf o = Ok (t, s, o1) /\ o < o1 <= blen buf).
Proof.
  unfold decodeCtrlData. destruct (N.leb_spec (blen buf) o); [left; eauto|].
  destruct (at_Ok buf o) as [c ->]; [lia|]. cbn [bind].
  destruct (N.eqb_spec (b2n c / 32) 0).
  - destruct (N.leb_spec (blen buf) (o + 1)); [left; cbn; eauto|].
    destruct (at_Ok buf (o + 1)) as [eb ->]; [lia|]. cbn [bind].
    destruct (sizeFrom_fine buf (b2n c) (o + 1 + 1) ((b2n eb + 7) mod 256)) as [[x ->]|(s & o1 & -> & B)]; [lia| |].
    + left. cbn. eauto.
    + right. cbn [bind]. do 3 eexists. split; [reflexivity|lia].
  - cbn [bind].
    destruct (sizeFrom_fine buf (b2n c) (o + 1) (b2n c / 32)) as [[x ->]|(s & o1 & -> & B)]; [lia| |].
    + left. cbn. eauto.
    + right. cbn [bind]. do 3 eexists. split; [reflexivity|lia].
Qed.
Lemma pointer_fine buf s o :
  (exists e, decodePointer buf s o = Err e) \/
  (exists p o1, decodePointer buf s o = Ok (p, o1) /\ o < o1 <= blen buf).
Proof.
  unfold decodePointer. destruct (N.ltb_spec (blen buf) (o + ((s / 8) mod 4 + 1))); [left; eauto|].
  destruct (cut_Ok buf o (o + ((s / 8) mod 4 + 1))) as (bs & -> & _); [lia|lia|]. cbn [bind].
  right. do 2 eexists. split; [reflexivity|lia].
Qed.

(** No panic: value, error, or still running. *)
Definition tame {A} (r : res A) : Prop := r <> Panic.
Lemma bind_tame {A B} (r : res A) (f : A -> res B) : tame r -> (forall a, r = Ok a -> tame (f a)) -> tame (bind r f).
Proof. unfold tame. destruct r; cbn; auto; discriminate. Qed.
Lemma ctrl_tame buf o : tame (decodeCtrlData buf o).
Proof. destruct (ctrl_fine buf o) as [[e ->]|(?&?&?&->&_)]; discriminate. Qed.
Lemma pointer_tame buf s o : tame (decodePointer buf s o).
Proof. destruct (pointer_fine buf s o) as [[e ->]|(?&?&->&_)]; discriminate. Qed.
Lemma decodeKey_tame buf n o : tame (decodeKey buf n o).
Proof.
  revert o. induction n; intros o; [discriminate|]. cbn [decodeKey].
  apply bind_tame; [apply ctrl_tame|]. intros [[t s] o1] E.
  destruct (ctrl_fine buf o) as [[e E']|(t' & s' & o1' & E' & B)]; rewrite E in E'; [discriminate|].
  injection E' as <- <- <-.
  destruct (t =? tPointer).
  - apply bind_tame; [apply pointer_tame|]. intros [p o2] _. apply bind_tame; [apply IHn|].
    intros [k o3] _. discriminate.
  - destruct (t =? tString); cbn [negb]; [|discriminate].
    destruct (N.ltb_spec (blen buf) (o1 + s)); [discriminate|].
    destruct (cut_Ok buf o1 (o1 + s)) as (bs & -> & _); [lia|lia|]. discriminate.
Qed.
Lemma decodeSized_fine buf kd t s o : fine (decodeSized buf kd t s o).
Proof.
  unfold decodeSized. destruct (N.ltb_spec (blen buf) (o + s)); [auto|].
  destruct (cut_Ok buf o (o + s)) as (bs & -> & _); [lia|lia|]. cbn [bind].
  repeat match goal with |- fine (if ?c then _ else _) => destruct c end; auto.
Qed.
Lemma fine_tame {A} (r : res A) : fine r -> tame r.
Proof. intros [[? ->]|[? ->]]; discriminate. Qed.
Lemma map_loop_tame buf kf dec n : (forall o, tame (dec o)) -> forall o, tame (map_loop buf kf dec n o).
Proof.
  intros Hd. induction n; intros o; [discriminate|]. cbn [map_loop].
  apply bind_tame; [apply decodeKey_tame|]. intros [k o1] _.
  apply bind_tame; [apply Hd|]. intros [v o2] _. apply bind_tame; [apply IHn|]. intros [m o3] _. discriminate.
Qed.
Lemma list_loop_tame dec n : (forall o, tame (dec o)) -> forall o, tame (list_loop dec n o).
Proof.
  intros Hd. induction n; intros o; [discriminate|]. cbn [list_loop].
  apply bind_tame; [apply Hd|]. intros [v o2] _. apply bind_tame; [apply IHn|]. intros [m o3] _. discriminate.
Qed.
Lemma decode_tame buf kf lvl kd o : tame (decode buf kf lvl kd o).
Proof.
  revert kd o. induction lvl; intros kd o; [discriminate|]. cbn [decode].
  apply bind_tame; [apply ctrl_tame|]. intros [[t s] o1] _.
  destruct (t =? tBool). { destruct (1 <? s); [discriminate|]. destruct (any kd); discriminate. }
  destruct (t =? tMap).
  { destruct kd; try discriminate; (apply bind_tame; [apply map_loop_tame; auto|]; intros [m o2] _; discriminate). }
  destruct (t =? tPointer).
  { apply bind_tame; [apply pointer_tame|]. intros [p o2] _. apply bind_tame; [apply IHlvl|]. intros [v o3] _; discriminate. }
  destruct (t =? tSlice).
  { destruct kd; try discriminate; (apply bind_tame; [apply list_loop_tame; auto|]; intros [m o2] _; discriminate). }
  apply fine_tame, decodeSized_fine.
Qed.
Lemma nextValueOffset_tame buf n o k : tame (nextValueOffset buf n o k).
Proof.
  revert o k. induction n; intros o k; [discriminate|]. cbn [nextValueOffset].
  destruct (k =? 0); [discriminate|]. apply bind_tame; [apply ctrl_tame|]. intros [[t s] o1] _.
  destruct (t =? tPointer). { apply bind_tame; [apply pointer_tame|]. intros [p o2] _. apply IHn. }
  repeat match goal with |- tame (if ?c then _ else _) => destruct c end; apply IHn.
Qed.
Lemma struct_loop_tame buf kf sf lvl n o m : tame (struct_loop buf kf sf lvl n o m).
Proof.
  revert o m. induction n; intros o m; [discriminate|]. cbn [struct_loop].
  apply bind_tame; [apply decodeKey_tame|]. intros [k o1] _. destruct (meta_field k) as [[kd set]|].
  - apply bind_tame; [apply decode_tame|]. intros [v o2] _. apply IHn.
  - apply bind_tame; [apply nextValueOffset_tame|]. intros o2 _. apply IHn.
Qed.
Lemma decodeMeta_tame buf kf sf lvl o : tame (decodeMeta buf kf sf lvl o).
Proof.
  revert o. induction lvl; intros o; [discriminate|]. cbn [decodeMeta].
  apply bind_tame; [apply ctrl_tame|]. intros [[t s] o1] _.
  destruct (t =? tMap). { apply bind_tame; [apply struct_loop_tame|]. intros [m o2] _. discriminate. }
  destruct (t =? tPointer); [|discriminate].
  apply bind_tame; [apply pointer_tame|]. intros [p o2] _. apply IHlvl.
Qed.

(** ** Termination *)

Lemma key_chain_add buf m n o : key_chain buf (m + n) o =
  match key_chain buf m o with Some q => key_chain buf n q | None => None end.
Proof. revert o. induction m; intros o; cbn; [reflexivity|]. destruct (key_next buf o); auto. Qed.
Lemma decodeKey_fuel buf n o : decodeKey buf n o = OutOfFuel <-> exists p, key_chain buf n o = Some p.
Proof.
  revert o. induction n; intros o; [cbn; split; eauto|]. cbn [decodeKey key_chain]. unfold key_next.
  destruct (ctrl_fine buf o) as [[e ->]|(t & s & o1 & -> & B)]; cbn [bind]; [split; [discriminate|now intros []]|].
  destruct (N.eqb_spec t tPointer).
  - destruct (pointer_fine buf s o1) as [[e' ->]|(p & o2 & -> & B')]; cbn [bind]; [split; [discriminate|now intros []]|].
    rewrite <- IHn. destruct (decodeKey buf n p) as [[]| | |]; cbn; split; congruence.
  - split; [|now intros []]. destruct (t =? tString); cbn [negb]; [|discriminate].
    destruct (N.ltb_spec (blen buf) (o1 + s)); [discriminate|].
    destruct (cut_Ok buf o1 (o1 + s)) as (bs & -> & _); [lia|lia|]. discriminate.
Qed.
Lemma decodeKey_more buf n m o : decodeKey buf n o <> OutOfFuel -> decodeKey buf (n + m) o = decodeKey buf n o.
Proof.
  revert o. induction n; intros o H; [now destruct H|]. cbn [decodeKey Nat.add] in *.
  destruct (decodeCtrlData buf o) as [[[t s] o1]| | |]; cbn [bind] in *; auto.
  destruct (t =? tPointer); auto.
  destruct (decodePointer buf s o1) as [[p o2]| | |]; cbn [bind] in *; auto.
  rewrite IHn; [reflexivity|]. intros E. rewrite E in H. now destruct H.
Qed.
Lemma key_next_lt buf o p : key_next buf o = Some p -> o < blen buf.
Proof.
  unfold key_next. destruct (ctrl_fine buf o) as [[e ->]|(t & s & o1 & -> & B)]; [discriminate|]. lia.
Qed.
Lemma key_chain_prefix buf n m o p : key_chain buf n o = Some p -> (m <= n)%nat -> exists q, key_chain buf m o = Some q.
Proof.
  intros H Hm. replace n with (m + (n - m))%nat in H by lia. rewrite key_chain_add in H.
  destruct (key_chain buf m o); [eauto|discriminate].
Qed.
Lemma has_dup (l : list N) : ~ NoDup l -> exists a l1 l2 l3, l = l1 ++ a :: l2 ++ a :: l3.
Proof.
  induction l as [|x l IH]; intros H; [destruct H; constructor|].
  destruct (in_dec N.eq_dec x l) as [Hi|Hi].
  - apply in_split in Hi as (l2 & l3 & ->). now exists x, [], l2, l3.
  - destruct IH as (a & l1 & l2 & l3 & ->); [|now exists a, (x :: l1), l2, l3].
    intros Hd. apply H. now constructor.
Qed.
Lemma key_chain_cycle buf n o p : key_chain buf (S n) o = Some p -> (length buf <= n)%nat ->
  exists i d q, (0 < d)%nat /\ key_chain buf i o = Some q /\ key_chain buf d q = Some q.
Proof.
  intros H Hn.
  set (f i := match key_chain buf i o with Some q => q | None => 0 end).
  assert (Hf : forall i, (i <= S n)%nat -> key_chain buf i o = Some (f i)).
  { intros i Hi. destruct (key_chain_prefix buf (S n) i o p H Hi) as [q E]. unfold f. now rewrite E. }
  assert (Hlt : forall i, (i <= n)%nat -> f i < blen buf).
  { intros i Hi. assert (E := Hf (i + 1)%nat ltac:(lia)). rewrite key_chain_add, Hf in E by lia. cbn in E.
    destruct (key_next buf (f i)) eqn:E2; [|discriminate]. now apply key_next_lt in E2. }
  destruct (ListDec.NoDup_dec N.eq_dec (map f (seq 0 (S n)))) as [Hd|Hd].
  - exfalso.
    assert (Hi : incl (map f (seq 0 (S n))) (map N.of_nat (seq 0 (length buf)))).
    { intros x Hx. apply in_map_iff in Hx as (i & <- & Hi). apply in_seq in Hi. apply in_map_iff.
      exists (N.to_nat (f i)). specialize (Hlt i ltac:(lia)). unfold blen in Hlt. split; [lia|]. apply in_seq. lia. }
    apply (NoDup_incl_length Hd) in Hi. rewrite !map_length, !seq_length in Hi. lia.
  - apply has_dup in Hd as (a & l1 & l2 & l3 & E).
    assert (E1 : nth_error (map f (seq 0 (S n))) (length l1) = Some a).
    { rewrite E, nth_error_app2, Nat.sub_diag by lia. reflexivity. }
    assert (E2 : nth_error (map f (seq 0 (S n))) (length l1 + S (length l2)) = Some a).
    { rewrite E, nth_error_app2 by lia. replace (length l1 + S (length l2) - length l1)%nat with (S (length l2)) by lia.
      cbn. rewrite nth_error_app2, Nat.sub_diag by lia. reflexivity. }
    assert (L : (length l1 + S (length l2) < S n)%nat).
    { rewrite <- (seq_length (S n) 0), <- (map_length f). apply nth_error_Some. rewrite E2. discriminate. }
    rewrite nth_error_map in E1, E2.
    assert (G : forall i, (i < S n)%nat -> nth_error (seq 0 (S n)) i = Some i).
    { intros i Hi. rewrite (nth_error_nth' _ O) by (rewrite seq_length; lia). now rewrite seq_nth. }
    rewrite G in E1, E2 by lia. cbn [option_map] in E1, E2. injection E1 as E1. injection E2 as E2.
    exists (length l1), (S (length l2)), a. split; [lia|].
    assert (C1 := Hf (length l1) ltac:(lia)). rewrite E1 in C1. split; [assumption|].
    assert (C2 := Hf (length l1 + S (length l2))%nat ltac:(lia)). now rewrite E2, key_chain_add, C1 in C2.
Qed.
Lemma cycle_forever buf d q n : (0 < d)%nat -> key_chain buf d q = Some q -> exists p, key_chain buf n q = Some p.
Proof.
  intros Hd H. assert (K : forall k, key_chain buf (k * d) q = Some q).
  { induction k; [reflexivity|]. cbn [Nat.mul]. now rewrite key_chain_add, H. }
  apply (key_chain_prefix buf (n * d) n q q); [apply K|]. destruct d; nia.
Qed.
Lemma chain_plus buf n o p : key_chain buf (S n) o = Some p -> plus (fun a b => key_next buf a = Some b) o p.
Proof.
  revert o. induction n; intros o H.
  - cbn in H. destruct (key_next buf o) eqn:E; [|discriminate]. injection H as ->. now constructor.
  - cbn [key_chain] in H. destruct (key_next buf o) eqn:E; [|discriminate]. eapply plus_step; [exact E|]. now apply IHn.
Qed.
Lemma plus_chain buf o p : plus (fun a b => key_next buf a = Some b) o p -> exists n, key_chain buf (S n) o = Some p.
Proof.
  intros H. induction H as [x y E | x y z E _ (n & IH)].
  - exists O. cbn. now rewrite E.
  - exists (S n). cbn [key_chain]. rewrite E. exact IH.
Qed.

(** If a key is found with some fuel, the length of the buffer is enough. *)
Lemma decodeKey_enough buf n o kf : decodeKey buf n o <> OutOfFuel -> (length buf < kf)%nat ->
  decodeKey buf kf o = decodeKey buf n o.
Proof.
  intros H Hk.
  assert (D : decodeKey buf kf o <> OutOfFuel).
  { intros E. apply H. apply decodeKey_fuel in E as [p E]. apply decodeKey_fuel.
    destruct kf as [|k]; [lia|]. destruct (key_chain_cycle buf k o p E ltac:(lia)) as (i & d & q & Hd & C1 & C2).
    destruct (cycle_forever buf d q n Hd C2) as [r C3].
    apply (key_chain_prefix buf (i + n) n o r); [|lia]. now rewrite key_chain_add, C1. }
  rewrite <- (decodeKey_more buf n kf o H), Nat.add_comm. symmetry. now apply decodeKey_more.
Qed.
Lemma decodeKey_acyclic buf kf o : (forall q, ~ plus (fun a b => key_next buf a = Some b) q q) ->
  (length buf < kf)%nat -> decodeKey buf kf o <> OutOfFuel.
Proof.
  intros Ha Hk E. apply decodeKey_fuel in E as [p E]. destruct kf as [|k]; [lia|].
  destruct (key_chain_cycle buf k o p E ltac:(lia)) as (i & d & q & Hd & C1 & C2).
  destruct d; [lia|]. apply (Ha q). now apply chain_plus with d.
Qed.

Definition over {A} (r : res A) : Prop := r <> OutOfFuel.
Lemma bind_over {A B} (r : res A) (f : A -> res B) : over r -> (forall a, r = Ok a -> over (f a)) -> over (bind r f).
Proof. unfold over. destruct r; cbn; auto; discriminate. Qed.
Lemma fine_over {A} (r : res A) : fine r -> over r.
Proof. intros [[? ->]|[? ->]]; discriminate. Qed.
Lemma ctrl_over buf o : over (decodeCtrlData buf o).
Proof. destruct (ctrl_fine buf o) as [[e ->]|(?&?&?&->&_)]; discriminate. Qed.
Lemma pointer_over buf s o : over (decodePointer buf s o).
Proof. destruct (pointer_fine buf s o) as [[e ->]|(?&?&->&_)]; discriminate. Qed.

Lemma nextValueOffset_over buf n o k : (N.to_nat (blen buf) - N.to_nat o + 1 < n)%nat -> over (nextValueOffset buf n o k).
Proof.
  revert o k. induction n; intros o k Hn; [lia|]. cbn [nextValueOffset].
  destruct (k =? 0); [discriminate|].
  destruct (ctrl_fine buf o) as [[e ->]|(t & s & o1 & -> & B)]; cbn [bind]; [discriminate|].
  destruct (t =? tPointer).
  { destruct (pointer_fine buf s o1) as [[e ->]|(p & o2 & -> & B')]; cbn [bind]; [discriminate|]. apply IHn. lia. }
  repeat match goal with |- over (if ?c then _ else _) => destruct c end; apply IHn; lia.
Qed.

Section Acyclic.
Variable buf : bytes.
Variable kf : nat.
Hypothesis Hk : forall o, over (decodeKey buf kf o).
Lemma map_loop_over dec n : (forall o, over (dec o)) -> forall o, over (map_loop buf kf dec n o).
Proof.
  intros Hd. induction n; intros o; [discriminate|]. cbn [map_loop].
  apply bind_over; [apply Hk|]. intros [k o1] _.
  apply bind_over; [apply Hd|]. intros [v o2] _. apply bind_over; [apply IHn|]. intros [m o3] _. discriminate.
Qed.
Lemma list_loop_over dec n : (forall o, over (dec o)) -> forall o, over (list_loop dec n o).
Proof.
  intros Hd. induction n; intros o; [discriminate|]. cbn [list_loop].
  apply bind_over; [apply Hd|]. intros [v o2] _. apply bind_over; [apply IHn|]. intros [m o3] _. discriminate.
Qed.
Lemma decode_over lvl kd o : over (decode buf kf lvl kd o).
Proof.
  revert kd o. induction lvl; intros kd o; [discriminate|]. cbn [decode].
  apply bind_over; [apply ctrl_over|]. intros [[t s] o1] _.
  destruct (t =? tBool). { destruct (1 <? s); [discriminate|]. destruct (any kd); discriminate. }
  destruct (t =? tMap).
  { destruct kd; try discriminate; (apply bind_over; [apply map_loop_over; auto|]; intros [m o2] _; discriminate). }
  destruct (t =? tPointer).
  { apply bind_over; [apply pointer_over|]. intros [p o2] _. apply bind_over; [apply IHlvl|]. intros [v o3] _; discriminate. }
  destruct (t =? tSlice).
  { destruct kd; try discriminate; (apply bind_over; [apply list_loop_over; auto|]; intros [m o2] _; discriminate). }
  apply fine_over, decodeSized_fine.
Qed.
Lemma struct_loop_over sf lvl n o m : (length buf + 1 < sf)%nat -> over (struct_loop buf kf sf lvl n o m).
Proof.
  intros Hs. revert o m. induction n; intros o m; [discriminate|]. cbn [struct_loop].
  apply bind_over; [apply Hk|]. intros [k o1] _. destruct (meta_field k) as [[kd set]|].
  - apply bind_over; [apply decode_over|]. intros [v o2] _. apply IHn.
  - apply bind_over; [apply nextValueOffset_over; unfold blen; lia|]. intros o2 _. apply IHn.
Qed.
Lemma decodeMeta_over sf lvl o : (length buf + 1 < sf)%nat -> over (decodeMeta buf kf sf lvl o).
Proof.
  intros Hs. revert o. induction lvl; intros o; [discriminate|]. cbn [decodeMeta].
  apply bind_over; [apply ctrl_over|]. intros [[t s] o1] _.
  destruct (t =? tMap). { apply bind_over; [apply struct_loop_over; assumption|]. intros [m o2] _. discriminate. }
  destruct (t =? tPointer); [|discriminate].
  apply bind_over; [apply pointer_over|]. intros [p o2] _. apply IHlvl.
Qed.
End Acyclic.

(** ** Key pointers: decoder and specification agree *)
Lemma skipn_add {A} m n (l : list A) : skipn m (skipn n l) = skipn (n + m) l.
Proof. revert l. induction n; intros l; cbn; [reflexivity|]. destruct l; [now rewrite skipn_nil|]. apply IHn. Qed.
Lemma holds_join buf o a b : holds buf o a -> holds buf (o + len a) b -> holds buf o (a ++ b).
Proof.
  unfold holds, len. intros Ha Hb. rewrite app_length.
  replace (N.to_nat (o + N.of_nat (length a))) with (N.to_nat o + length a)%nat in Hb by lia.
  rewrite <- skipn_add in Hb. set (l := skipn (N.to_nat o) buf) in *.
  rewrite <- Ha at 2. rewrite <- Hb at 2. clear Hb.
  clearbody l. revert Ha. generalize (length a). intros n _. revert l.
  induction n; intros l; [reflexivity|]. destruct l; cbn; [now rewrite ?firstn_nil|]. f_equal. apply IHn.
Qed.
Lemma at_inv buf o b : at_ buf o = Ok b -> holds buf o [b].
Proof.
  unfold at_, idx, holds. destruct (nth_error buf (N.to_nat o)) eqn:E; [|discriminate]. intros [= ->].
  apply nth_error_split in E as (l1 & l2 & -> & <-). rewrite skipn_app, skipn_all, Nat.sub_diag. reflexivity.
Qed.
Lemma cut_inv buf lo hi bs : cut buf lo hi = Ok bs -> holds buf lo bs /\ len bs = hi - lo /\ lo <= hi.
Proof.
  unfold cut, slice, holds, len. destruct (Nat.leb_spec (N.to_nat lo) (N.to_nat hi)); [|discriminate].
  destruct (Nat.leb_spec (N.to_nat hi) (length buf)); [|discriminate]. cbn [andb]. intros [= <-].
  rewrite firstn_length, skipn_length. rewrite Nat.min_l by lia. repeat split; lia.
Qed.

Lemma sizeFrom_inv buf c t o size o1 : t <> 0 -> c < 256 -> sizeFromCtrlByte buf c o t = Ok (size, o1) ->
  exists more, ctrl_size (c mod 32) more size /\ holds buf o more /\ o1 = o + len more.
Proof.
  intros Ht Hc. unfold sizeFromCtrlByte. destruct (N.eqb_spec t 0); [contradiction|].
  destruct (N.ltb_spec (c mod 32) 29).
  { intros [= <- <-]. exists []. split; [left; auto|]. split; [reflexivity|]. unfold len. cbn. lia. }
  destruct (N.ltb_spec (blen buf) (o + (c mod 32 - 28))); [discriminate|].
  destruct (N.eqb_spec (c mod 32) 29) as [E|E].
  { destruct (at_ buf o) as [b| | |] eqn:Eb; try discriminate. cbn [bind]. intros [= <- <-].
    apply at_inv in Eb. exists [b]. split; [|split; [assumption|reflexivity]].
    right; left. repeat split; auto. f_equal. cbn [val length]. change (2 ^ (8 * N.of_nat 0)) with 1. lia. }
  destruct (cut buf o (o + (c mod 32 - 28))) as [bs| | |] eqn:Eb; try discriminate. cbn [bind].
  apply cut_inv in Eb as (Hb & Hl & _). rewrite uintFromBytes_0. intros H1.
  assert (L : length bs = N.to_nat (c mod 32 - 28)) by (unfold len in Hl; lia).
  exists bs. destruct (N.eqb_spec (c mod 32) 30) as [E2|E2]; injection H1 as <- <-; (split; [|split; [assumption|clear - Hl; lia]]).
  - right; right; left. repeat split; auto. rewrite L, E2. reflexivity.
  - assert (E3 : c mod 32 = 31) by lia. right; right; right. repeat split; auto; [rewrite L, E3; reflexivity|apply N.add_comm].
Qed.
Lemma decodePointer_inv buf size o p o2 : decodePointer buf size o = Ok (p, o2) ->
  exists bs, loose_pointer size p bs /\ holds buf o bs.
Proof.
  unfold decodePointer. destruct (N.ltb_spec (blen buf) (o + ((size / 8) mod 4 + 1))); [discriminate|].
  destruct (cut buf o (o + ((size / 8) mod 4 + 1))) as [bs| | |] eqn:Eb; try discriminate. cbn [bind]. intros [= <- <-].
  apply cut_inv in Eb as (Hb & Hl & _). exists bs. split; [|assumption].
  assert (L : len bs = (size / 8) mod 4 + 1) by lia. split; [assumption|]. rewrite <- L.
  assert (L4 : 1 <= len bs <= 4) by lia. clear Hl L H. unfold len in *. rewrite uintFromBytes_val.
  destruct bs as [|b1 [|b2 [|b3 [|b4 [|]]]]]; cbn [length] in *; try lia.
  - change (N.of_nat 1) with 1. cbn [N.eqb Pos.eqb]. cbv iota. change (8 * 1) with 8. lia.
  - change (N.of_nat 2) with 2. cbn [N.eqb Pos.eqb]. cbv iota. change (8 * 2) with 16. lia.
  - change (N.of_nat 3) with 3. cbn [N.eqb Pos.eqb]. cbv iota. change (8 * 3) with 24. lia.
  - change (N.of_nat 4) with 4. cbn [N.eqb Pos.eqb]. cbv iota. lia.
Qed.
Lemma key_next_leads buf o p : key_next buf o = Some p -> leads buf o p.
Proof.
  unfold key_next, decodeCtrlData.
  destruct (N.leb_spec (blen buf) o); [discriminate|].
  destruct (at_ buf o) as [c| | |] eqn:Ec; try discriminate. cbn [bind]. apply at_inv in Ec.
  assert (Hc := b2n_lt c).
  assert (G : forall lead t, ctrl_lead lead (b2n c mod 32) -> holds buf o lead -> t = tPointer ->
    match (let* ' (size, o1) := sizeFromCtrlByte buf (b2n c) (o + len lead) t in Ok (t, size, o1)) with
    | Ok (t, size, o1) => if t =? tPointer then match decodePointer buf size o1 with Ok (p, _) => Some p | _ => None end else None
    | _ => None end = Some p -> leads buf o p).
  { intros lead t Hlead Hh -> Hx.
    destruct (sizeFromCtrlByte buf (b2n c) (o + len lead) tPointer) as [[size o1]| | |] eqn:Es; try discriminate.
    cbn [bind] in Hx. rewrite N.eqb_refl in Hx.
    destruct (decodePointer buf size o1) as [[q o2]| | |] eqn:Ep; try discriminate. injection Hx as ->.
    apply sizeFrom_inv in Es as (more & Hm & Hh2 & ->); [|discriminate|assumption].
    apply decodePointer_inv in Ep as (bs & Hl & Hh3).
    exists lead, (b2n c mod 32), more, size, bs. repeat split; auto; try apply Hl.
    apply holds_join; [assumption|]. now apply holds_join. }
  destruct (N.eqb_spec (b2n c / 32) 0).
  - destruct (N.leb_spec (blen buf) (o + 1)); [discriminate|].
    destruct (at_ buf (o + 1)) as [e'| | |] eqn:Ee; try discriminate. cbn [bind]. intros Hx. apply at_inv in Ee.
    destruct (N.eqb_spec ((b2n e' + 7) mod 256) tPointer) as [E1|E1].
    + apply (G [c; e'] ((b2n e' + 7) mod 256)); auto.
      * right. exists c. assert (Ee' := b2n_lt e'). unfold tPointer in E1.
        replace e' with xfa by (apply b2n_inj; change (b2n xfa) with 250; lia). repeat split; lia.
      * change [c; e'] with ([c] ++ [e']). now apply holds_join.
      * replace (o + len [c; e']) with (o + 1 + 1) by (unfold len; cbn; lia). exact Hx.
    + exfalso. destruct (sizeFromCtrlByte _ _ _ _) as [[]| | |]; cbn [bind] in Hx; try discriminate.
      destruct (N.eqb_spec ((b2n e' + 7) mod 256) tPointer); [contradiction|discriminate].
  - cbn [bind]. intros Hx. destruct (N.eqb_spec (b2n c / 32) tPointer) as [E1|E1].
    + apply (G [c] (b2n c / 32)); auto. left. exists c. unfold tPointer in E1. repeat split; lia.
    + exfalso. destruct (sizeFromCtrlByte _ _ _ _) as [[]| | |]; cbn [bind] in Hx; try discriminate.
      destruct (N.eqb_spec (b2n c / 32) tPointer); [contradiction|discriminate].
Qed.
Lemma holds_prefix buf o a b : holds buf o (a ++ b) -> holds buf o a.
Proof.
  destruct a as [|x a]; [reflexivity|]. intros H. destruct (holds_split _ _ _ H) as (pre & post & -> & <-); [discriminate|].
  rewrite <- app_assoc. apply holds_intro.
Qed.
Lemma leads_key_next buf o p : leads buf o p -> key_next buf o = Some p.
Proof.
  intros (lead & s & more & size & bs & Hlead & Hsize & (Hlen & Hp) & Hh).
  assert (Hln : lead <> []) by (destruct Hlead as [(c & -> & _)|(c & -> & _)]; discriminate).
  assert (S1 : forall c, c mod 32 = s -> sizeFromCtrlByte buf c (o + len lead) tPointer = Ok (size, o + len lead + len more)).
  { intros c Hc. unfold sizeFromCtrlByte. rewrite Hc. change (tPointer =? 0) with false. cbv iota.
    destruct (cut_holds buf o lead more bs Hh Hln) as [Hcut Hle].
    destruct Hsize as [(H1 & -> & ->)|[(-> & L & ->)|[(-> & L & ->)|(-> & L & ->)]]].
    - destruct (N.ltb_spec s 29); [|lia]. unfold len. cbn. now rewrite N.add_0_r.
    - change (29 <? 29) with false. change (29 - 28) with 1. cbv iota.
      replace (len more) with 1 in * by (unfold len; rewrite L; reflexivity).
      destruct (N.ltb_spec (blen buf) (o + len lead + 1)); [lia|]. change (29 =? 29) with true. cbv iota.
      destruct more as [|x [|]]; try discriminate.
      destruct (at_holds buf o lead x bs Hh) as [-> _]. cbn [bind val length]. change (2 ^ (8 * N.of_nat 0)) with 1.
      f_equal. f_equal. lia.
    - change (30 <? 29) with false. change (30 - 28) with 2. cbv iota.
      replace (len more) with 2 in * by (unfold len; rewrite L; reflexivity).
      destruct (N.ltb_spec (blen buf) (o + len lead + 2)); [lia|]. change (30 =? 29) with false. cbv iota.
      rewrite Hcut. cbn [bind]. now rewrite uintFromBytes_0.
    - change (31 <? 29) with false. change (31 - 28) with 3. cbv iota.
      replace (len more) with 3 in * by (unfold len; rewrite L; reflexivity).
      destruct (N.ltb_spec (blen buf) (o + len lead + 3)); [lia|]. change (31 =? 29) with false. cbv iota.
      rewrite Hcut. cbn [bind]. rewrite uintFromBytes_0. change (31 =? 30) with false. cbv iota. now rewrite N.add_comm. }
  assert (S2 : decodePointer buf size (o + len lead + len more) = Ok (p, o + len lead + len more + len bs)).
  { unfold decodePointer. rewrite <- Hlen.
    assert (Hh2 : holds buf o ((lead ++ more) ++ bs ++ [])) by now rewrite app_nil_r, <- app_assoc.
    destruct (cut_holds buf o (lead ++ more) bs [] Hh2) as [Hcut Hle]; [now destruct lead|].
    rewrite len_app in Hcut, Hle. rewrite N.add_assoc in Hcut, Hle.
    destruct (N.ltb_spec (blen buf) (o + len lead + len more + len bs)); [lia|].
    rewrite Hcut. cbn [bind]. f_equal. f_equal. rewrite Hp, uintFromBytes_val.
    assert (L4 : len bs <= 4) by lia. assert (L1 : 1 <= len bs) by lia. clear - L4 L1. unfold len in *.
    destruct bs as [|b1 [|b2 [|b3 [|b4 [|]]]]]; cbn [length] in *; try lia.
    - change (N.of_nat 1) with 1. cbn [N.eqb Pos.eqb]. cbv iota. change (8 * 1) with 8. lia.
    - change (N.of_nat 2) with 2. cbn [N.eqb Pos.eqb]. cbv iota. change (8 * 2) with 16. lia.
    - change (N.of_nat 3) with 3. cbn [N.eqb Pos.eqb]. cbv iota. change (8 * 3) with 24. lia.
    - change (N.of_nat 4) with 4. cbn [N.eqb Pos.eqb]. cbv iota. lia. }
  unfold key_next, decodeCtrlData. destruct Hlead as [(c & -> & Hc & Hs)|(c & -> & Hc & Hs)].
  - destruct (at0_holds _ _ _ _ Hh) as [A B]. destruct (N.leb_spec (blen buf) o); [lia|].
    rewrite A. cbn [bind]. rewrite Hc. replace ((32 + s) / 32) with tPointer by (unfold tPointer; lia).
    change (tPointer =? 0) with false. cbv iota. cbn [bind]. change (o + 1) with (o + len [c]).
    rewrite S1 by lia. cbn [bind]. rewrite N.eqb_refl, S2. reflexivity.
  - destruct (at0_holds _ _ _ _ Hh) as [A B]. destruct (N.leb_spec (blen buf) o); [lia|].
    rewrite A. cbn [bind]. rewrite Hc. replace (s / 32) with 0 by lia. change (0 =? 0) with true. cbv iota.
    destruct (at_holds buf o [c] xfa (more ++ bs) Hh) as [A2 B2]. change (len [c]) with 1 in *.
    destruct (N.leb_spec (blen buf) (o + 1)); [lia|]. rewrite A2. cbn [bind].
    change ((b2n xfa + 7) mod 256) with tPointer.
    replace (o + 1 + 1) with (o + len [c; xfa]) by (unfold len; cbn; lia).
    rewrite S1 by lia. cbn [bind]. rewrite N.eqb_refl, S2. reflexivity.
Qed.
Lemma points_leads buf o p : points buf o p -> leads buf o p.
Proof.
  intros (bs & Hp & Hh). apply key_next_leads. unfold key_next.
  destruct (ctrl_pointer buf o p bs Hp Hh) as (size & -> & ->). now rewrite N.eqb_refl.
Qed.
Lemma plus_iff {A} (R S : A -> A -> Prop) : (forall x y, R x y -> S x y) -> forall x y, plus R x y -> plus S x y.
Proof. intros H x y P. induction P; [apply plus_one|eapply plus_step]; eauto. Qed.

(** ** Decoding gives back what was encoded *)
Lemma int32_signed bs : (length bs <= 4)%nat -> int32_of bs = signed32 bs.
Proof.
  intros H. unfold int32_of, signed32. rewrite uintFromBytes_0.
  assert (B := val_bound bs). change (2 ^ 32) with 4294967296. change (2 ^ 31) with 2147483648.
  change (2 ^ 32)%Z with 4294967296%Z.
  destruct (Nat.eqb_spec (length bs) 4) as [E|E].
  - rewrite E in B. change (2 ^ (8 * N.of_nat 4)) with 4294967296 in B. rewrite N.mod_small by lia. cbn [andb].
    destruct (N.ltb_spec (val bs) 2147483648), (N.leb_spec 2147483648 (val bs)); lia.
  - assert (B2 : val bs < 2 ^ (8 * N.of_nat 3)).
    { eapply N.lt_le_trans; [exact B|]. apply N.pow_le_mono_r; lia. }
    change (2 ^ (8 * N.of_nat 3)) with 16777216 in B2. cbn [andb]. rewrite N.mod_small by lia.
    destruct (N.ltb_spec (val bs) 2147483648); lia.
Qed.
Lemma key_at_decode buf o s o' : key_at buf o s o' -> exists n, decodeKey buf n o = Ok (s, o').
Proof.
  induction 1 as [o s Hs Hh | o p bs s o2 Hp Hh _ (n & IH)].
  - exists 1%nat. cbn [decodeKey]. rewrite (ctrl_header _ _ _ _ _ Hh) by (lia || assumption). cbn [bind].
    change (2 =? tPointer) with false. change (2 =? tString) with true. cbv iota. cbn [negb].
    rewrite <- (app_nil_r s) in Hh at 2.
    destruct (cut_holds buf o _ s [] Hh (header_nonnil _ _)) as [Hc Hl].
    destruct (N.ltb_spec (blen buf) (o + len (header 2 (len s)) + len s)); [lia|]. rewrite Hc. cbn [bind].
    rewrite len_app, N.add_assoc. reflexivity.
  - exists (S n). cbn [decodeKey]. destruct (ctrl_pointer buf o p bs Hp Hh) as (size & -> & E). cbn [bind].
    change (tPointer =? tPointer) with true. cbv iota. rewrite E. cbn [bind]. now rewrite IH.
Qed.
Lemma key_at_enough buf o s o' kf : key_at buf o s o' -> (length buf < kf)%nat -> decodeKey buf kf o = Ok (s, o').
Proof.
  intros H Hk. destruct (key_at_decode _ _ _ _ H) as [n E].
  rewrite <- E. apply decodeKey_enough; [now rewrite E|assumption].
Qed.

Scheme enc_at_m := Induction for enc_at Sort Prop
  with entries_at_m := Induction for entries_at Sort Prop
  with items_at_m := Induction for items_at Sort Prop.
Combined Scheme enc_at_mut from enc_at_m, entries_at_m, items_at_m.

Lemma sized_ok buf d o t n (bs : bytes) kd : holds buf o (header t n ++ bs) -> 1 <= t <= 15 -> len bs = n -> n < size_limit ->
  t <> tBool -> t <> tMap -> t <> tPointer -> t <> tSlice -> forall kf,
  exists o1, decode buf kf (S d) kd o = decodeSized buf kd t n o1 /\
    o1 + n <= blen buf /\ cut buf o1 (o1 + n) = Ok bs /\ o1 + n = o + len (header t n ++ bs).
Proof.
  intros Hh Ht Hl Hn N1 N2 N3 N4 kf. exists (o + len (header t n)). cbn [decode].
  rewrite (ctrl_header _ _ _ _ _ Hh) by assumption. cbn [bind].
  destruct (N.eqb_spec t tBool); [contradiction|]. destruct (N.eqb_spec t tMap); [contradiction|].
  destruct (N.eqb_spec t tPointer); [contradiction|]. destruct (N.eqb_spec t tSlice); [contradiction|].
  rewrite <- (app_nil_r bs) in Hh.
  destruct (cut_holds buf o _ bs [] Hh (header_nonnil _ _)) as [Hc Hle]. rewrite Hl in *. rewrite len_app, Hl.
  repeat split; auto. lia.
Qed.
Lemma small_len (bs : bytes) n : (length bs <= n)%nat -> (n <= 16)%nat -> len bs < size_limit.
Proof. unfold len, size_limit. change (2 ^ 24) with 16777216. lia. Qed.

Section Encoded.
Variable buf : bytes.
Variable kf : nat.
Hypothesis Hkf : (length buf < kf)%nat.
Lemma enc_at_decode :
  (forall d o v o', enc_at buf d o v o' -> decode buf kf d KAny o = Ok (v, o')) /\
  (forall d o m o', entries_at buf d o m o' -> map_loop buf kf (decode buf kf d KAny) (length m) o = Ok (m, o')) /\
  (forall d o l o', items_at buf d o l o' -> list_loop (decode buf kf d KAny) (length l) o = Ok (l, o')).
Proof.
  apply (enc_at_mut buf
    (fun d o v o' _ => decode buf kf d KAny o = Ok (v, o'))
    (fun d o m o' _ => map_loop buf kf (decode buf kf d KAny) (length m) o = Ok (m, o'))
    (fun d o l o' _ => list_loop (decode buf kf d KAny) (length l) o = Ok (l, o'))).
  - intros d o s Hs Hh.
    destruct (sized_ok buf d o 2 (len s) s KAny Hh) with (kf := kf) as (o1 & E & L & C & F); try easy; try lia.
    rewrite E. unfold decodeSized. destruct (N.ltb_spec (blen buf) (o1 + len s)); [lia|].
    cbn [N.eqb Pos.eqb tBytes tFloat32 tFloat64 tInt32 tString]. rewrite C. cbn [bind kstring]. now rewrite F.
  - intros d o s Hs Hh.
    destruct (sized_ok buf d o 4 (len s) s KAny Hh) with (kf := kf) as (o1 & E & L & C & F); try easy; try lia.
    rewrite E. unfold decodeSized. destruct (N.ltb_spec (blen buf) (o1 + len s)); [lia|].
    cbn [N.eqb Pos.eqb tBytes]. rewrite C. cbn [bind any]. now rewrite F.
  - intros t d o bs Ht Hh.
    assert (Hs : len bs < size_limit) by (apply small_len with 16%nat; lia).
    destruct (sized_ok buf d o t (len bs) bs KAny Hh) with (kf := kf) as (o1 & E & L & C & F); try lia;
      try (unfold tBool, tMap, tPointer, tSlice; lia).
    rewrite E. unfold decodeSized. destruct (N.ltb_spec (blen buf) (o1 + len bs)); [lia|].
    rewrite C. cbn [bind kuint]. rewrite F, uintFromBytes_0. unfold len.
    destruct Ht as [[-> B]|[[-> B]|[-> B]]]; cbn [N.eqb Pos.eqb tBytes tFloat32 tFloat64 tInt32 tString tUint16 tUint32 tUint64].
    + destruct (N.ltb_spec 2 (N.of_nat (length bs))); [lia|reflexivity].
    + destruct (N.ltb_spec 4 (N.of_nat (length bs))); [lia|reflexivity].
    + destruct (N.ltb_spec 8 (N.of_nat (length bs))); [lia|reflexivity].
  - intros d o bs Ht Hh.
    assert (Hs : len bs < size_limit) by (apply small_len with 16%nat; lia).
    destruct (sized_ok buf d o 10 (len bs) bs KAny Hh) with (kf := kf) as (o1 & E & L & C & F); try lia;
      try (unfold tBool, tMap, tPointer, tSlice; lia).
    rewrite E. unfold decodeSized. destruct (N.ltb_spec (blen buf) (o1 + len bs)); [lia|].
    rewrite C. cbn [bind any N.eqb Pos.eqb tBytes tFloat32 tFloat64 tInt32 tString tUint16 tUint32 tUint64 tUint128].
    destruct (N.ltb_spec 16 (len bs)); [unfold len in *; lia|]. now rewrite F, uintFromBytes_0.
  - intros d o bs Ht Hh.
    assert (Hs : len bs < size_limit) by (apply small_len with 16%nat; lia).
    destruct (sized_ok buf d o 8 (len bs) bs KAny Hh) with (kf := kf) as (o1 & E & L & C & F); try lia;
      try (unfold tBool, tMap, tPointer, tSlice; lia).
    rewrite E. unfold decodeSized. destruct (N.ltb_spec (blen buf) (o1 + len bs)); [lia|].
    rewrite C. cbn [bind any N.eqb Pos.eqb tBytes tFloat32 tFloat64 tInt32].
    destruct (N.ltb_spec 4 (len bs)); [unfold len in *; lia|]. rewrite F, int32_signed by assumption. reflexivity.
  - intros d o bs Ht Hh.
    destruct (sized_ok buf d o 3 8 bs KAny Hh) with (kf := kf) as (o1 & E & L & C & F); try lia; try reflexivity;
      try (unfold tBool, tMap, tPointer, tSlice, len; lia).
    rewrite E. unfold decodeSized. destruct (N.ltb_spec (blen buf) (o1 + 8)); [lia|].
    rewrite C. cbn [bind any negb N.eqb Pos.eqb tBytes tFloat32 tFloat64]. now rewrite F, uintFromBytes_0.
  - intros d o bs Ht Hh.
    destruct (sized_ok buf d o 15 4 bs KAny Hh) with (kf := kf) as (o1 & E & L & C & F); try lia; try reflexivity;
      try (unfold tBool, tMap, tPointer, tSlice, len; lia).
    rewrite E. unfold decodeSized. destruct (N.ltb_spec (blen buf) (o1 + 4)); [lia|].
    rewrite C. cbn [bind any negb N.eqb Pos.eqb tBytes tFloat32]. now rewrite F, uintFromBytes_0.
  - intros d o b Hh. rewrite <- (app_nil_r (header _ _)) in Hh. cbn [decode].
    rewrite (ctrl_header _ _ _ _ _ Hh) by (try lia; destruct b; reflexivity). cbn [bind].
    change (14 =? tBool) with true. cbv iota. destruct b; reflexivity.
  - intros d o m o2 Hl Hh _ IH. rewrite <- (app_nil_r (header _ _)) in Hh. cbn [decode].
    rewrite (ctrl_header _ _ _ _ _ Hh) by (try lia; assumption). cbn [bind].
    change (7 =? tBool) with false. change (7 =? tMap) with true. cbv iota. rewrite Nat2N.id, IH. reflexivity.
  - intros d o l o2 Hl Hh _ IH. rewrite <- (app_nil_r (header _ _)) in Hh. cbn [decode].
    rewrite (ctrl_header _ _ _ _ _ Hh) by (try lia; assumption). cbn [bind].
    change (11 =? tBool) with false. change (11 =? tMap) with false. change (11 =? tPointer) with false.
    change (11 =? tSlice) with true. cbv iota. rewrite Nat2N.id, IH. reflexivity.
  - intros d o p bs v o2 Hp Hh _ IH. cbn [decode].
    destruct (ctrl_pointer buf o p bs Hp Hh) as (size & -> & E). cbn [bind].
    change (tPointer =? tBool) with false. change (tPointer =? tMap) with false. change (tPointer =? tPointer) with true.
    cbv iota. rewrite E. cbn [bind]. now rewrite IH.
  - reflexivity.
  - intros d o k o1 v o2 m o3 Hk _ IHv _ IHm. cbn [map_loop length].
    rewrite (key_at_enough _ _ _ _ _ Hk Hkf). cbn [bind]. rewrite IHv. cbn [bind]. now rewrite IHm.
  - reflexivity.
  - intros d o v o1 l o2 _ IHv _ IHl. cbn [list_loop length]. rewrite IHv. cbn [bind]. now rewrite IHl.
Qed.
End Encoded.

(** ** The encoder's output is an encoding *)
Fixpoint value_rect' (P : value -> Prop)
  (Hm : forall m, Forall (fun kv => P (snd kv)) m -> P (VMap m))
  (Hl : forall l, Forall P l -> P (VList l))
  (H0 : forall v, (forall m, v <> VMap m) -> (forall l, v <> VList l) -> P v) (v : value) {struct v} : P v.
Proof.
  destruct v; try (apply H0; discriminate).
  - apply Hm. induction m as [|[k v] m IH]; constructor; [apply value_rect'; assumption|assumption].
  - apply Hl. induction l; constructor; [apply value_rect'; assumption|assumption].
Defined.
Lemma holds_at pre bs post : holds (pre ++ bs ++ post) (len pre) bs.
Proof. apply holds_intro. Qed.
Lemma encode_at v : encodable v -> forall d pre post, (depth v <= d)%nat ->
  enc_at (pre ++ encode v ++ post) d (len pre) v (len pre + len (encode v)).
Proof.
  induction v as [m IH | l IH | v N1 N2] using value_rect'; intros Hv d pre post Hd.
  - destruct d; [cbn in Hd; lia|]. cbn [encode encodable depth] in *. destruct Hv as [Hlen Hv].
    set (h := header 7 (N.of_nat (length m))) in *.
    set (f := fun kv : bytes * value => header 2 (len (fst kv)) ++ fst kv ++ encode (snd kv)) in *.
    apply ea_map; [assumption| |].
    + rewrite <- app_assoc. apply holds_at.
    + fold h. assert (Hd2 : (fold_right (fun kv n => Nat.max (depth (snd kv)) n) O m <= d)%nat) by lia.
      clearbody h. clear Hd Hlen. rewrite !len_app, !N.add_assoc.
      rewrite <- app_assoc, app_assoc, <- (len_app pre h). generalize (pre ++ h). clear h pre.
      induction IH as [|[k v] m Hkv HF IHF]; intros pre; cbn [flat_map fold_right fst snd] in *.
      * unfold len at 3. cbn. rewrite N.add_0_r. constructor.
      * destruct Hv as [[Hk Hv] Hrest]. rewrite !len_app, !N.add_assoc.
        set (E1 := encode v) in *. set (R := flat_map f m) in *.
        replace (pre ++ (f (k, v) ++ R) ++ post) with (pre ++ (header 2 (len k) ++ k) ++ E1 ++ R ++ post)
          by (unfold f; cbn [fst snd]; rewrite <- !app_assoc; reflexivity).
        apply en_cons with (o1 := len pre + len (header 2 (len k) ++ k)) (o2 := len pre + len (header 2 (len k) ++ k) + len E1).
        -- apply ka_str; [assumption|]. apply holds_at.
        -- rewrite app_assoc, <- len_app. apply Hkv; [assumption|lia].
        -- replace (pre ++ (header 2 (len k) ++ k) ++ E1 ++ R ++ post) with
             ((pre ++ (header 2 (len k) ++ k) ++ E1) ++ R ++ post) by (rewrite <- !app_assoc; reflexivity).
           replace (len pre + len (header 2 (len k) ++ k) + len E1) with (len (pre ++ (header 2 (len k) ++ k) ++ E1))
             by (rewrite !len_app; lia).
           replace (len pre + len (f (k, v)) + len R) with (len (pre ++ (header 2 (len k) ++ k) ++ E1) + len R)
             by (unfold f; cbn [fst snd]; fold E1; rewrite !len_app; lia).
           apply IHF; [assumption|lia].
  - destruct d; [cbn in Hd; lia|]. cbn [encode encodable depth] in *. destruct Hv as [Hlen Hv].
    set (h := header 11 (N.of_nat (length l))) in *.
    apply ea_list; [assumption| |].
    + rewrite <- app_assoc. apply holds_at.
    + fold h. assert (Hd2 : (fold_right (fun x n => Nat.max (depth x) n) O l <= d)%nat) by lia.
      clearbody h. clear Hd Hlen. rewrite !len_app, !N.add_assoc.
      rewrite <- app_assoc, app_assoc, <- (len_app pre h). generalize (pre ++ h). clear h pre.
      induction IH as [|v l Hx HF IHF]; intros pre; cbn [flat_map fold_right] in *.
      * unfold len at 3. cbn. rewrite N.add_0_r. constructor.
      * destruct Hv as [Hv Hrest]. rewrite !len_app, !N.add_assoc. rewrite <- app_assoc.
        apply it_cons with (o1 := len pre + len (encode v)); [apply Hx; [assumption|lia]|].
        rewrite app_assoc, <- len_app. apply IHF; [assumption|lia].
  - assert (Hd' : exists d', d = S d').
    { destruct d; [|eauto]. destruct v; cbn [depth] in Hd; lia. }
    destruct Hd' as [d' ->]. destruct v; cbn [encode encodable] in *.
    + apply ea_bool. apply holds_at.
    + apply ea_str; [assumption|]. apply holds_at.
    + apply ea_bytes; [assumption|]. apply holds_at.
    + replace (VF32 n) with (VF32 (val (be_enc 4 n))) by (rewrite val_be_enc, N.mod_small; [reflexivity|exact Hv]).
      apply ea_f32; [apply be_enc_length|]. apply holds_at.
    + replace (VF64 n) with (VF64 (val (be_enc 8 n))) by (rewrite val_be_enc, N.mod_small; [reflexivity|exact Hv]).
      apply ea_f64; [apply be_enc_length|]. apply holds_at.
    + set (bs := be_enc 4 (Z.to_N (z mod 2 ^ 32))).
      assert (Lb : length bs = 4%nat) by apply be_enc_length.
      replace (VInt z) with (VInt (signed32 bs)).
      * replace 4 with (len bs) by (unfold len; now rewrite Lb). apply ea_int; [lia|]. apply holds_at.
      * f_equal. unfold signed32. rewrite Lb. cbn [Nat.eqb andb]. unfold bs. rewrite val_be_enc.
        change (2 ^ (8 * N.of_nat 4)) with 4294967296. change (2 ^ 31) with 2147483648.
        change (2 ^ 32)%Z with 4294967296%Z. change (2 ^ 31)%Z with 2147483648%Z in Hv.
        rewrite N.mod_small by lia.
        destruct (N.leb_spec 2147483648 (Z.to_N (z mod 4294967296))); lia.
    + replace (VUint n) with (VUint (val (be_enc 8 n))) by (rewrite val_be_enc, N.mod_small; [reflexivity|exact Hv]).
      replace 8 with (len (be_enc 8 n)) at 1 2 by (unfold len; now rewrite be_enc_length).
      apply ea_uint; [rewrite be_enc_length; lia|]. apply holds_at.
    + replace (VBig n) with (VBig (val (be_enc 16 n))) by (rewrite val_be_enc, N.mod_small; [reflexivity|exact Hv]).
      replace 16 with (len (be_enc 16 n)) at 1 2 by (unfold len; now rewrite be_enc_length).
      apply ea_big; [rewrite be_enc_length; lia|]. apply holds_at.
    + now destruct (N1 m).
    + now destruct (N2 l).
Qed.

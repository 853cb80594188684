(** C72: what decoding awdb data asks for.  Statements use SpecAw (the format), the decoder of
    AwDecode.v and the same decoder with its requests recorded (AwCost.v). *)
From Verif Require Import Base AwDecode SpecAw AwDecodeProofs AwCost PropsAwDecode.
Open Scope N_scope.

Lemma snd_tbind {A B} (x : traced A) (f : A -> traced B) : snd (tbind x f) = bind (snd x) (fun a => snd (f a)).
Proof. destruct x as [t [a|e| |]]; reflexivity. Qed.
Lemma bind_ext {A B} (r : res A) (f g : A -> res B) : (forall a, f a = g a) -> bind r f = bind r g.
Proof. intros H. destruct r; cbn; auto. Qed.

Section Erase.
Variable buf : bytes.
Variable kf : nat.
Lemma decodeKeyT_snd n : forall o, snd (decodeKeyT buf n o) = decodeKey buf n o.
Proof.
  induction n as [|n IH]; intros o; [reflexivity|]. cbn [decodeKeyT decodeKey]. rewrite snd_tbind. cbn [quiet snd].
  apply bind_ext. intros [[t s] no]. destruct (t =? tPointer); [|reflexivity].
  rewrite snd_tbind. cbn [quiet snd]. apply bind_ext. intros [p o']. rewrite snd_tbind. cbn [ask snd bind].
  rewrite snd_tbind, IH. apply bind_ext. intros [v ?]. reflexivity.
Qed.
Lemma map_loopT_snd dec dec' n : (forall o, snd (dec o) = dec' o) ->
  forall o, snd (map_loopT buf kf dec n o) = map_loop buf kf dec' n o.
Proof.
  intros H. induction n as [|n IH]; intros o; [reflexivity|]. cbn [map_loopT map_loop]. rewrite snd_tbind, decodeKeyT_snd.
  apply bind_ext. intros [key o1]. rewrite snd_tbind, H. apply bind_ext. intros [v o2].
  rewrite snd_tbind. cbn [ask snd bind]. rewrite snd_tbind, IH. apply bind_ext. intros [m o3]. reflexivity.
Qed.
Lemma list_loopT_snd dec dec' n : (forall o, snd (dec o) = dec' o) ->
  forall o, snd (list_loopT dec n o) = list_loop dec' n o.
Proof.
  intros H. induction n as [|n IH]; intros o; [reflexivity|]. cbn [list_loopT list_loop]. rewrite snd_tbind, H.
  apply bind_ext. intros [v o1]. rewrite snd_tbind, IH. apply bind_ext. intros [m o2]. reflexivity.
Qed.
Lemma decodeT_snd lvl : forall kd o, snd (decodeT buf kf lvl kd o) = decode buf kf lvl kd o.
Proof.
  induction lvl as [|l IH]; intros kd o; [reflexivity|]. cbn [decodeT decode]. rewrite snd_tbind. cbn [quiet snd].
  apply bind_ext. intros [[t s] no]. destruct (t =? tBool); [reflexivity|]. destruct (t =? tMap).
  { destruct kd; try reflexivity; rewrite snd_tbind; cbn [ask snd bind]; rewrite snd_tbind;
    (erewrite map_loopT_snd; [|intros; apply IH]); apply bind_ext; intros [m o']; reflexivity. }
  destruct (t =? tPointer).
  { rewrite snd_tbind. cbn [quiet snd]. apply bind_ext. intros [p o']. rewrite snd_tbind. cbn [ask snd bind].
    rewrite snd_tbind, IH. apply bind_ext. intros [v ?]. reflexivity. }
  destruct (t =? tSlice); [|reflexivity].
  destruct kd; try reflexivity; rewrite snd_tbind; cbn [ask snd bind]; rewrite snd_tbind;
  (erewrite list_loopT_snd; [|intros; apply IH]); apply bind_ext; intros [m o']; reflexivity.
Qed.
End Erase.

(** C72: recording the requests does not change the decoder. *)
Theorem C72_same_decoder : forall buf kf lvl kd o, snd (decodeT buf kf lvl kd o) = decode buf kf lvl kd o.
Proof. intros. apply decodeT_snd. Qed.
Print Assumptions C72_same_decoder.

(** ** What is asked for *)
Lemma Forall_tbind {A B} P (x : traced A) (f : A -> traced B) : Forall P (fst x) ->
  (forall a, snd x = Ok a -> Forall P (fst (f a))) -> Forall P (fst (tbind x f)).
Proof. intros H1 H2. unfold tbind. destruct x as [t [a|e| |]]; cbn in *; auto. apply Forall_app. split; auto. Qed.

Lemma ctrl_size_bound buf o t s o1 : decodeCtrlData buf o = Ok (t, s, o1) -> s < size_limit.
Proof.
  unfold decodeCtrlData. destruct (blen buf <=? o); [discriminate|]. destruct (at_ buf o) as [c| | |]; cbn [bind]; try discriminate.
  assert (S : forall o' t', match sizeFromCtrlByte buf (b2n c) o' t' with Ok (s, _) => s < size_limit | _ => True end).
  { intros o' t'. unfold sizeFromCtrlByte. pose proof (N.mod_lt (b2n c) 32 ltac:(lia)) as M. unfold size_limit. destruct (t' =? 0); [lia|].
    destruct (b2n c mod 32 <? 29); [lia|].
    destruct (N.ltb_spec (blen buf) (o' + (b2n c mod 32 - 28))) as [L|L]; [exact I|].
    destruct (N.eqb_spec (b2n c mod 32) 29) as [H9|H9].
    { destruct (at_ buf o') as [b| | |]; cbn [bind]; auto. pose proof (b2n_lt b). lia. }
    destruct (cut_Ok buf o' (o' + (b2n c mod 32 - 28)) ltac:(lia) L) as (bs & -> & Lb). cbn [bind].
    rewrite uintFromBytes_0. pose proof (val_bound bs) as V. unfold len in Lb.
    destruct (N.eqb_spec (b2n c mod 32) 30) as [H0|H0].
    { replace (length bs) with 2%nat in V by lia. change (2 ^ (8 * N.of_nat 2)) with 65536 in V. lia. }
    assert (N.of_nat (length bs) <= 3) by lia.
    assert (2 ^ (8 * N.of_nat (length bs)) <= 2 ^ 24) by (apply N.pow_le_mono_r; lia). lia. }
  destruct (b2n c / 32 =? 0).
  { destruct (blen buf <=? o + 1); [discriminate|]. destruct (at_ buf (o + 1)) as [e| | |]; cbn [bind]; try discriminate.
    specialize (S (o + 1 + 1) ((b2n e + 7) mod 256)). destruct (sizeFromCtrlByte _ _ _ _) as [[s' o'']| | |]; cbn [bind]; try discriminate.
    intros E. injection E as _ <- _. exact S. }
  cbn [bind]. specialize (S (o + 1) (b2n c / 32)). destruct (sizeFromCtrlByte _ _ _ _) as [[s' o'']| | |]; cbn [bind]; try discriminate.
  intros E. injection E as _ <- _. exact S.
Qed.

Lemma decodeKey_len buf n : forall o k o1, decodeKey buf n o = Ok (k, o1) -> len k <= len buf.
Proof.
  induction n as [|n IH]; intros o k o1; [discriminate|]. cbn [decodeKey].
  destruct (ctrl_fine buf o) as [[e ->]|(t & s & o2 & -> & B)]; cbn [bind]; [discriminate|].
  destruct (t =? tPointer).
  { destruct (pointer_fine buf s o2) as [[e ->]|(p & o3 & -> & B')]; cbn [bind]; [discriminate|].
    destruct (decodeKey buf n p) as [[k' o']| | |] eqn:E; cbn [bind]; try discriminate. intros H. injection H as <- _. eauto. }
  destruct (negb (t =? tString)); [discriminate|]. destruct (N.ltb_spec (blen buf) (o2 + s)) as [L|L]; [discriminate|].
  destruct (cut_Ok buf o2 (o2 + s) ltac:(lia) L) as (bs & -> & Lb). cbn [bind]. intros H. injection H as <- _.
  unfold blen in L. unfold len in *. lia.
Qed.
Definition within (buf : bytes) (e : event) : Prop :=
  match e with AskMap n | AskList n => n < size_limit | AskBytes n => n <= len buf | Follow _ => True end.
Section Bounded.
Variable buf : bytes.
Variable kf : nat.
Lemma quiet_within {A} (r : res A) : Forall (within buf) (fst (quiet r)). Proof. constructor. Qed.
Lemma ask_within e : within buf e -> Forall (within buf) (fst (ask e)). Proof. repeat constructor. assumption. Qed.
Hint Resolve quiet_within ask_within : core.
Lemma keyT_within n : forall o, Forall (within buf) (fst (decodeKeyT buf n o)).
Proof.
  induction n as [|n IH]; intros o; [constructor|]. cbn [decodeKeyT]. apply Forall_tbind; [auto|]. intros [[t s] no] _.
  destruct (t =? tPointer); [|auto]. apply Forall_tbind; [auto|]. intros [p o'] _. apply Forall_tbind; [apply ask_within; exact I|]. intros _ _.
  apply Forall_tbind; [auto|]. intros [? ?] _. auto.
Qed.
Lemma map_within dec n : (forall o, Forall (within buf) (fst (dec o))) -> forall o, Forall (within buf) (fst (map_loopT buf kf dec n o)).
Proof.
  intros H. induction n as [|n IH]; intros o; [constructor|]. cbn [map_loopT].
  apply Forall_tbind; [apply keyT_within|]. intros [key o1] Ek. rewrite decodeKeyT_snd in Ek. apply decodeKey_len in Ek.
  apply Forall_tbind; [auto|]. intros [v o2] _. apply Forall_tbind; [apply ask_within; exact Ek|]. intros _ _.
  apply Forall_tbind; [auto|]. intros [? ?] _. auto.
Qed.
Lemma list_within dec n : (forall o, Forall (within buf) (fst (dec o))) -> forall o, Forall (within buf) (fst (list_loopT dec n o)).
Proof.
  intros H. induction n as [|n IH]; intros o; [constructor|]. cbn [list_loopT].
  apply Forall_tbind; [auto|]. intros [v o2] _. apply Forall_tbind; [auto|]. intros [? ?] _. auto.
Qed.
Lemma decodeT_within lvl : forall kd o, Forall (within buf) (fst (decodeT buf kf lvl kd o)).
Proof.
  induction lvl as [|l IH]; intros kd o; [constructor|]. cbn [decodeT]. apply Forall_tbind; [auto|]. intros [[t s] no] E.
  cbn [quiet snd] in E. apply ctrl_size_bound in E. destruct (t =? tBool); [auto|]. destruct (t =? tMap).
  { destruct kd; auto; (apply Forall_tbind; [apply ask_within; exact E|]); intros _ _;
    (apply Forall_tbind; [apply map_within; auto|]); intros [? ?] _; auto. }
  destruct (t =? tPointer).
  { apply Forall_tbind; [auto|]. intros [p o'] _. apply Forall_tbind; [apply ask_within; exact I|]. intros _ _.
    apply Forall_tbind; [auto|]. intros [? ?] _. auto. }
  destruct (t =? tSlice).
  { destruct kd; auto; (apply Forall_tbind; [apply ask_within; exact E|]); intros _ _;
    (apply Forall_tbind; [apply list_within; auto|]); intros [? ?] _; auto. }
  unfold decodeSizedT. cbn [fst]. destruct (N.ltb_spec (blen buf) (no + s)) as [L|L]; [constructor|].
  destruct ((t =? tBytes) || (t =? tString)); [|constructor]. repeat constructor. cbn. unfold blen in L. unfold len. lia.
Qed.
End Bounded.

(** C72: whatever the data, and whether or not it can be decoded: a map or a slice is made
    for fewer than 65821 + 2^24 elements, and a copy is at most as long as the data. *)
Theorem C72_requests_bounded : forall buf kf lvl kd o e, In e (fst (decodeT buf kf lvl kd o)) ->
  match e with
  | AskMap n | AskList n => n < 65821 + 2 ^ 24
  | AskBytes n => n <= len buf
  | Follow _ => True
  end.
Proof.
  intros buf kf lvl kd o e H. pose proof (decodeT_within buf kf lvl kd o) as F. rewrite Forall_forall in F.
  exact (F e H).
Qed.
Print Assumptions C72_requests_bounded.

(** ** Decoded values *)
(** How many values there are in a value, itself included. *)
Fixpoint values (v : value) : N :=
  match v with
  | VMap m => 1 + fold_right (fun kv n => values (snd kv) + n) 0 m
  | VList l => 1 + fold_right (fun x n => values x + n) 0 l
  | _ => 1
  end.
(** Elements of all maps and slices made, bytes of all copies. *)
Definition elements (t : list event) : N :=
  fold_right (fun e n => match e with AskMap k | AskList k => k + n | _ => n end) 0 t.
Definition copied (t : list event) : N :=
  fold_right (fun e n => match e with AskBytes k => k + n | _ => n end) 0 t.
Definition no_pointer (t : list event) : Prop := forall p, ~ In (Follow p) t.

Lemma elements_app a b : elements (a ++ b) = elements a + elements b.
Proof. induction a as [|[] a IH]; cbn; unfold elements in *; lia. Qed.
Lemma copied_app a b : copied (a ++ b) = copied a + copied b.
Proof. induction a as [|[] a IH]; cbn; unfold copied in *; lia. Qed.
Lemma no_pointer_app a b : no_pointer (a ++ b) -> no_pointer a /\ no_pointer b.
Proof. unfold no_pointer. intros H. split; intros p I; apply (H p), in_or_app; auto. Qed.

Lemma tbind_Ok {A B} (x : traced A) (f : A -> traced B) b : snd (tbind x f) = Ok b ->
  exists a, snd x = Ok a /\ snd (f a) = Ok b /\ fst (tbind x f) = fst x ++ fst (f a).
Proof. unfold tbind. destruct x as [t [a|e| |]]; cbn; try discriminate. eauto. Qed.

Section Linear.
Variable buf : bytes.
Variable kf : nat.
Definition lin (o : N) (x : traced (value * N)) : Prop := forall v o', snd x = Ok (v, o') ->
  elements (fst x) + 1 = values v /\ (no_pointer (fst x) -> o + values v + copied (fst x) <= o').
Lemma keyT_lin n : forall o k o1, snd (decodeKeyT buf n o) = Ok (k, o1) ->
  elements (fst (decodeKeyT buf n o)) = 0 /\ copied (fst (decodeKeyT buf n o)) = 0 /\
  (no_pointer (fst (decodeKeyT buf n o)) -> o + 1 + len k <= o1).
Proof.
  induction n as [|n IH]; intros o k o1; [discriminate|]. cbn [decodeKeyT].
  intros H. destruct (tbind_Ok _ _ _ H) as ([[t s] no] & E1 & E2 & ->). clear H. cbn [quiet fst snd app] in *.
  destruct (ctrl_fine buf o) as [[e E]|(t' & s' & o2 & E & B)]; rewrite E in E1; [discriminate|]. injection E1 as <- <- <-.
  destruct (t' =? tPointer).
  { destruct (tbind_Ok _ _ _ E2) as ([p o3] & F1 & F2 & ->). clear E2. cbn [quiet fst snd app] in *.
    destruct (tbind_Ok _ _ _ F2) as ([] & G1 & G2 & ->). clear F2. cbn [ask fst snd app] in *.
    destruct (tbind_Ok _ _ _ G2) as ([k' o4] & K1 & K2 & ->). clear G2. cbn [quiet fst snd app] in *. rewrite app_nil_r.
    destruct (IH p k' o4 K1) as (I1 & I2 & _). cbn. repeat split; [exact I1|exact I2|].
    intros Hp. destruct (Hp p). now left. }
  cbn [quiet fst snd] in *. repeat split. intros _. destruct (negb (t' =? tString)); [discriminate|].
  destruct (N.ltb_spec (blen buf) (o2 + s')) as [L|L]; [discriminate|].
  destruct (cut_Ok buf o2 (o2 + s') ltac:(lia) L) as (bs & Eb & Lb). rewrite Eb in E2. cbn [bind] in E2. injection E2 as <- <-. lia.
Qed.
Lemma map_lin dec n : (forall o, lin o (dec o)) -> forall o m o', snd (map_loopT buf kf dec n o) = Ok (m, o') ->
  elements (fst (map_loopT buf kf dec n o)) + N.of_nat n = fold_right (fun kv n => values (snd kv) + n) 0 m /\
  (no_pointer (fst (map_loopT buf kf dec n o)) ->
   o + fold_right (fun kv n => values (snd kv) + n) 0 m + copied (fst (map_loopT buf kf dec n o)) <= o').
Proof.
  intros Hd. induction n as [|n IH]; intros o m o'.
  { cbn. intros H. injection H as <- <-. cbn. split; [reflexivity|]. lia. }
  cbn [map_loopT]. intros H.
  destruct (tbind_Ok _ _ _ H) as ([key o1] & E1 & E2 & ->). clear H.
  destruct (tbind_Ok _ _ _ E2) as ([v o2] & F1 & F2 & ->). clear E2.
  destruct (tbind_Ok _ _ _ F2) as ([] & G1 & G2 & ->). clear F2. cbn [ask fst snd app] in *.
  destruct (tbind_Ok _ _ _ G2) as ([m' o3] & K1 & K2 & ->). clear G2. cbn [quiet fst snd app] in *. rewrite app_nil_r.
  injection K2 as <- <-. destruct (keyT_lin _ _ _ _ E1) as (A1 & A2 & A3). destruct (Hd o1 v o2 F1) as [B1 B2].
  destruct (IH o2 m' o3 K1) as [C1 C2]. cbn [fold_right snd].
  rewrite !elements_app, !copied_app.
  change (elements (AskBytes (N.of_nat (length key)) :: fst (map_loopT buf kf dec n o2))) with (elements (fst (map_loopT buf kf dec n o2))).
  change (copied (AskBytes (N.of_nat (length key)) :: fst (map_loopT buf kf dec n o2))) with (len key + copied (fst (map_loopT buf kf dec n o2))).
  split; [lia|]. intros Hp. apply no_pointer_app in Hp as [P1 Hp]. apply no_pointer_app in Hp as [P2 Hp].
  apply (no_pointer_app [_]) in Hp as [_ P3]. specialize (A3 P1). specialize (B2 P2). specialize (C2 P3). lia.
Qed.
Lemma list_lin dec n : (forall o, lin o (dec o)) -> forall o m o', snd (list_loopT dec n o) = Ok (m, o') ->
  elements (fst (list_loopT dec n o)) + N.of_nat n = fold_right (fun x n => values x + n) 0 m /\
  (no_pointer (fst (list_loopT dec n o)) ->
   o + fold_right (fun x n => values x + n) 0 m + copied (fst (list_loopT dec n o)) <= o').
Proof.
  intros Hd. induction n as [|n IH]; intros o m o'.
  { cbn. intros H. injection H as <- <-. cbn. split; [reflexivity|]. lia. }
  cbn [list_loopT]. intros H.
  destruct (tbind_Ok _ _ _ H) as ([v o2] & F1 & F2 & ->). clear H.
  destruct (tbind_Ok _ _ _ F2) as ([m' o3] & K1 & K2 & ->). clear F2. cbn [quiet fst snd app] in *. rewrite app_nil_r.
  injection K2 as <- <-. destruct (Hd o v o2 F1) as [B1 B2].
  destruct (IH o2 m' o3 K1) as [C1 C2]. cbn [fold_right snd].
  rewrite !elements_app, !copied_app.
  split; [lia|]. intros Hp. apply no_pointer_app in Hp as [P2 P3]. specialize (B2 P2). specialize (C2 P3). lia.
Qed.
Lemma sized_shape kd t s o v o' : decodeSized buf kd t s o = Ok (v, o') -> o' = o + s /\ values v = 1.
Proof.
  unfold decodeSized. destruct (blen buf <? o + s); [discriminate|].
  destruct (cut buf o (o + s)) as [bs| | |]; cbn [bind];
  repeat match goal with |- context [if ?c then _ else _] => destruct c end; try discriminate; intros H; injection H as <- <-; now split.
Qed.
Lemma decodeT_lin lvl : forall kd o, lin o (decodeT buf kf lvl kd o).
Proof.
  induction lvl as [|l IH]; intros kd o v o'; [discriminate|]. cbn [decodeT].
  intros H. destruct (tbind_Ok _ _ _ H) as ([[t s] no] & E1 & E2 & ->). clear H. cbn [quiet fst snd app] in *.
  destruct (ctrl_fine buf o) as [[e E]|(t' & s' & o2 & E & B)]; rewrite E in E1; [discriminate|]. injection E1 as <- <- <-.
  destruct (t' =? tBool).
  { destruct (1 <? s'); [discriminate|]. destruct (any kd); [|discriminate]. cbn in E2. injection E2 as <- <-. cbn. split; [reflexivity|]. lia. }
  destruct (t' =? tMap).
  { assert (G : forall kd', snd (tbind (ask (AskMap s')) (fun _ =>
                      tbind (map_loopT buf kf (decodeT buf kf l kd') (N.to_nat s') o2) (fun ' (m, o) =>
                      quiet (Ok (VMap m, o))))) = Ok (v, o') ->
                 let x := tbind (ask (AskMap s')) (fun _ =>
                      tbind (map_loopT buf kf (decodeT buf kf l kd') (N.to_nat s') o2) (fun ' (m, o) =>
                      quiet (Ok (VMap m, o)))) in
                 elements (fst x) + 1 = values v /\ (no_pointer (fst x) -> o + values v + copied (fst x) <= o')).
    { intros kd' H. cbv zeta. destruct (tbind_Ok _ _ _ H) as ([] & F1 & F2 & ->). clear H.
      destruct (tbind_Ok _ _ _ F2) as ([m o3] & G1 & G2 & ->). clear F2. cbn [ask quiet fst snd app] in *. injection G2 as <- <-.
      rewrite app_nil_r. destruct (map_lin _ _ (fun o0 => IH kd' o0) _ _ _ G1) as [A1 A2].
      cbn [values]. rewrite N2Nat.id in A1.
      change (elements (AskMap s' :: ?t)) with (s' + elements t). change (copied (AskMap s' :: ?t)) with (copied t).
      split; [lia|]. intros Hp. apply (no_pointer_app [_]) in Hp as [_ P]. specialize (A2 P). lia. }
    destruct kd; try discriminate; apply G; assumption. }
  destruct (t' =? tPointer).
  { destruct (tbind_Ok _ _ _ E2) as ([p o3] & F1 & F2 & ->). clear E2. cbn [quiet fst snd app] in *.
    destruct (tbind_Ok _ _ _ F2) as ([] & G1 & G2 & ->). clear F2. cbn [ask fst snd app] in *.
    destruct (tbind_Ok _ _ _ G2) as ([v' o4] & K1 & K2 & ->). clear G2. cbn [quiet fst snd app] in *. rewrite app_nil_r.
    injection K2 as -> ->. destruct (IH kd p v o4 K1) as [I1 _]. split; [exact I1|].
    intros Hp. destruct (Hp p). now left. }
  destruct (t' =? tSlice).
  { assert (G : forall kd', snd (tbind (ask (AskList s')) (fun _ =>
                      tbind (list_loopT (decodeT buf kf l kd') (N.to_nat s') o2) (fun ' (m, o) =>
                      quiet (Ok (VList m, o))))) = Ok (v, o') ->
                 let x := tbind (ask (AskList s')) (fun _ =>
                      tbind (list_loopT (decodeT buf kf l kd') (N.to_nat s') o2) (fun ' (m, o) =>
                      quiet (Ok (VList m, o)))) in
                 elements (fst x) + 1 = values v /\ (no_pointer (fst x) -> o + values v + copied (fst x) <= o')).
    { intros kd' H. cbv zeta. destruct (tbind_Ok _ _ _ H) as ([] & F1 & F2 & ->). clear H.
      destruct (tbind_Ok _ _ _ F2) as ([m o3] & G1 & G2 & ->). clear F2. cbn [ask quiet fst snd app] in *. injection G2 as <- <-.
      rewrite app_nil_r. destruct (list_lin _ _ (fun o0 => IH kd' o0) _ _ _ G1) as [A1 A2].
      cbn [values]. rewrite N2Nat.id in A1.
      change (elements (AskList s' :: ?t)) with (s' + elements t). change (copied (AskList s' :: ?t)) with (copied t).
      split; [lia|]. intros Hp. apply (no_pointer_app [_]) in Hp as [_ P]. specialize (A2 P). lia. }
    destruct kd; try discriminate; apply G; assumption. }
  cbn [decodeSizedT fst snd] in *. destruct (sized_shape _ _ _ _ _ _ E2) as [-> ->].
  destruct (blen buf <? o2 + s'); [cbn; split; [reflexivity|lia]|]. destruct ((t' =? tBytes) || (t' =? tString)); cbn; (split; [reflexivity|lia]).
Qed.
End Linear.

(** C72: when a value is decoded, the elements made for are exactly the values found in it
    (below it); and if no pointer was followed, its values and all bytes copied for it
    together are at most the bytes read. *)
Theorem C72_decoded : forall buf kf lvl kd o v o', decode buf kf lvl kd o = Ok (v, o') ->
  let t := fst (decodeT buf kf lvl kd o) in
  elements t + 1 = values v /\
  ((forall p, ~ In (Follow p) t) -> values v + copied t <= o' - o).
Proof.
  intros buf kf lvl kd o v o' H t. destruct (decodeT_lin buf kf lvl kd o v o') as [A B]; [now rewrite decodeT_snd|].
  split; [exact A|]. intros P. specialize (B P). fold t in B. lia.
Qed.
Print Assumptions C72_decoded.

(** ** Two findings *)
(** n slices, each the first element of the one before, each said to have the largest
    possible number of elements: five bytes each, and then the data ends. *)
Definition huge : bytes := header 11 (size_limit - 1).
Fixpoint heads (n : nat) : bytes := match n with O => [] | S k => huge ++ heads k end.
Lemma heads_trace kf n : forall pre lvl, (n < lvl)%nat ->
  decodeT (pre ++ heads n) kf lvl KAny (len pre) = (repeat (AskList (size_limit - 1)) n, Err ErrOffset).
Proof.
  induction n as [|n IH]; intros pre lvl L; (destruct lvl as [|l]; [lia|]); cbn [decodeT].
  - cbn [heads]. rewrite app_nil_r.
    assert (E : decodeCtrlData pre (len pre) = Err ErrOffset).
    { unfold decodeCtrlData, blen, len. now rewrite N.leb_refl. }
    rewrite E. reflexivity.
  - assert (E : decodeCtrlData (pre ++ heads (S n)) (len pre) = Ok (11, size_limit - 1, len pre + len huge)).
    { apply (ctrl_header _ _ 11 (size_limit - 1) (heads n)); [|lia|reflexivity]. cbn [heads]. fold huge.
      rewrite <- (app_nil_r (huge ++ heads n)) at 1. apply holds_intro. }
    rewrite E. cbn [tbind quiet fst snd app]. change (11 =? tBool) with false. change (11 =? tMap) with false.
    change (11 =? tPointer) with false. change (11 =? tSlice) with true. cbv iota.
    assert (S1 : exists k, N.to_nat (size_limit - 1) = S k).
    { exists (N.to_nat (size_limit - 2)). unfold size_limit. lia. }
    destruct S1 as [k ->]. cbn [tbind ask fst snd app list_loopT heads repeat].
    replace (len pre + len huge) with (len (pre ++ huge)) by (unfold len; rewrite app_length; lia).
    rewrite app_assoc, IH by lia. reflexivity.
Qed.

(** Finding: n <= 512 such headers, 5n bytes, make the decoder ask for n slices of
    16 843 036 elements each before it reports the error: 2560 bytes of data are enough for
    eight thousand million elements. *)
Theorem C72_sizes_not_checked : forall n kf pre, (n <= 512)%nat ->
  length (heads n) = (5 * n)%nat /\
  fst (decodeT (pre ++ heads n) kf max_depth KAny (len pre)) = repeat (AskList 16843036) n /\
  decode (pre ++ heads n) kf max_depth KAny (len pre) = Err ErrOffset.
Proof.
  intros n kf pre H. split; [|split].
  - clear H. induction n as [|n IH]; [reflexivity|]. cbn [heads]. rewrite app_length, IH. change (length huge) with 5%nat. lia.
  - rewrite heads_trace; [reflexivity|]. change max_depth with 513%nat. lia.
  - rewrite <- decodeT_snd, heads_trace; [reflexivity|]. change max_depth with 513%nat. lia.
Qed.
Print Assumptions C72_sizes_not_checked.

(** Arrays of two pointers to the array before, the first to a boolean. *)
Definition start (n : nat) : N := match n with O => 0 | S k => 2 + 6 * N.of_nat k end.
Definition short_pointer (p : N) : bytes := [n2b (32 + p / 256); n2b p].
Fixpoint pairs (n : nat) : bytes :=
  match n with
  | O => header 14 0
  | S k => pairs k ++ header 11 2 ++ short_pointer (start k) ++ short_pointer (start k)
  end.
Fixpoint pair_value (n : nat) : value :=
  match n with O => VBool false | S k => VList [pair_value k; pair_value k] end.
Lemma pairs_length n : length (pairs n) = (2 + 6 * n)%nat.
Proof. induction n as [|n IH]; [reflexivity|]. cbn [pairs]. rewrite !app_length, IH. change (length (header 11 2)) with 2%nat. cbn [length short_pointer]. lia. Qed.
Lemma pairs_prefix n k post : (k <= n)%nat -> exists mid, pairs n ++ post = pairs k ++ mid.
Proof.
  revert post. induction n as [|n IH]; intros post L.
  - replace k with O by lia. eauto.
  - destruct (Nat.eq_dec k (S n)) as [->|N]; [eauto|]. cbn [pairs]. rewrite <- app_assoc. apply IH. lia.
Qed.
Lemma pairs_enc n post : (n <= 256)%nat -> forall k d, (k <= n)%nat -> (2 * k < d)%nat ->
  exists o', enc_at (pairs n ++ post) d (start k) (pair_value k) o' /\ (k = n -> o' = 2 + 6 * N.of_nat n).
Proof.
  intros Hn k. induction k as [|k IH]; intros d Lk Ld.
  - destruct d as [|d]; [lia|]. destruct (pairs_prefix n 0 post ltac:(lia)) as [mid E].
    exists 2. cbn [start pair_value]. split; [|intros <-; reflexivity]. rewrite E. apply (ea_bool _ d 0 false).
    apply (holds_intro [] (header 14 0) mid).
  - destruct d as [|[|d]]; [lia|lia|]. destruct (pairs_prefix n (S k) post Lk) as [mid E].
    destruct (IH d ltac:(lia) ltac:(lia)) as (o1 & H1 & _).
    assert (B : start k < 2 ^ 11) by (destruct k; cbn [start]; [reflexivity|change (2 ^ 11) with 2048; lia]).
    assert (P : pointer_to (start k) (short_pointer (start k))) by (apply pt1; exact B).
    assert (L : start (S k) = N.of_nat (length (pairs k))) by (rewrite pairs_length; cbn [start]; lia).
    exists (start (S k) + len (header 11 2) + len (short_pointer (start k)) + len (short_pointer (start k))).
    split.
    2:{ intros <-. cbn [start]. change (len (header 11 2)) with 2. unfold len. cbn [short_pointer length]. lia. }
    rewrite E in *. cbn [pairs] in H1. cbn [pair_value]. apply ea_list.
    + reflexivity.
    + change (N.of_nat (length [pair_value k; pair_value k])) with 2. cbn [pairs]. rewrite L, <- !app_assoc. apply holds_intro.
    + change (N.of_nat (length [pair_value k; pair_value k])) with 2.
      apply it_cons with (o1 := start (S k) + len (header 11 2) + len (short_pointer (start k))).
      * apply (ea_ptr _ d _ _ _ _ o1 P); [|exact H1]. rewrite L. cbn [pairs].
        replace (N.of_nat (length (pairs k)) + len (header 11 2)) with (N.of_nat (length (pairs k ++ header 11 2))) by (unfold len; rewrite app_length; lia).
        replace ((pairs k ++ header 11 2 ++ short_pointer (start k) ++ short_pointer (start k)) ++ mid)
          with ((pairs k ++ header 11 2) ++ short_pointer (start k) ++ (short_pointer (start k) ++ mid)) by (rewrite <- !app_assoc; reflexivity).
        apply holds_intro.
      * eapply it_cons; [|constructor].
        apply (ea_ptr _ d _ _ _ _ o1 P); [|exact H1]. rewrite L. cbn [pairs].
        replace (N.of_nat (length (pairs k)) + len (header 11 2) + len (short_pointer (start k)))
          with (N.of_nat (length (pairs k ++ header 11 2 ++ short_pointer (start k)))) by (unfold len; rewrite !app_length; lia).
        replace ((pairs k ++ header 11 2 ++ short_pointer (start k) ++ short_pointer (start k)) ++ mid)
          with ((pairs k ++ header 11 2 ++ short_pointer (start k)) ++ short_pointer (start k) ++ mid) by (rewrite <- !app_assoc; reflexivity).
        apply holds_intro.
Qed.
Lemma pair_values n : values (pair_value n) + 1 = 2 ^ N.of_nat (S n).
Proof.
  induction n as [|n IH]; [reflexivity|]. cbn [pair_value values fold_right].
  replace (2 ^ N.of_nat (S (S n))) with (2 * 2 ^ N.of_nat (S n)) by (rewrite (Nat2N.inj_succ (S n)), N.pow_succ_r'; lia).
  lia.
Qed.

(** Finding: following pointers, 2 + 6n bytes (n <= 256) are decoded, without an error, to
    2^(n+1) - 1 values, one after the other: the data bounds neither memory nor time. *)
Theorem C72_exponential : forall n kf post, (n <= 256)%nat -> (length (pairs n ++ post) < kf)%nat ->
  length (pairs n) = (2 + 6 * n)%nat /\
  decode (pairs n ++ post) kf max_depth KAny (start n) = Ok (pair_value n, 2 + 6 * N.of_nat n) /\
  values (pair_value n) + 1 = 2 ^ N.of_nat (S n) /\
  elements (fst (decodeT (pairs n ++ post) kf max_depth KAny (start n))) + 2 = 2 ^ N.of_nat (S n).
Proof.
  intros n kf post H K.
  destruct (pairs_enc n post H n max_depth (Nat.le_refl n)) as (o' & E & Eo); [change max_depth with 513%nat; lia|].
  rewrite (Eo eq_refl) in E. apply (C37_decode_encoded _ _ _ _ kf) in E; [|exact K].
  split; [apply pairs_length|]. split; [exact E|]. split; [apply pair_values|].
  destruct (C72_decoded _ _ _ _ _ _ _ E) as [A _]. rewrite <- pair_values, <- A. lia.
Qed.
Print Assumptions C72_exponential.

(** Concrete data: the map with a shared text of PropsAwDecode.v: three elements, three keys of
    one byte, the text of two bytes copied twice, once through a pointer. *)
Example C72_case_shared : decodeT shared 100 max_depth KAny 1 =
  ([AskMap 3; AskBytes 2; AskBytes 1; Follow 4; AskBytes 2; AskBytes 1; AskBytes 1],
   Ok (VMap [(str "a", VStr (str "xy")); (str "b", VStr (str "xy")); (str "n", VInt (-2))], 19)).
Proof. vm_compute. reflexivity. Qed.
(** Without pointers: a map with a list, 5 values and 3 bytes copied from 13 bytes read. *)
Definition flat : bytes := encode (VMap [(str "k", VList [VBool true; VStr (str "x")]); (str "z", VBool false)]).
Example C72_case_flat :
  fst (decodeT flat 100 max_depth KAny 0) = [AskMap 2; AskList 2; AskBytes 1; AskBytes 1; AskBytes 1] /\
  (forall p, ~ In (Follow p) (fst (decodeT flat 100 max_depth KAny 0))) /\ len flat = 13.
Proof.
  assert (E : fst (decodeT flat 100 max_depth KAny 0) = [AskMap 2; AskList 2; AskBytes 1; AskBytes 1; AskBytes 1]) by (vm_compute; reflexivity).
  rewrite E. split; [reflexivity|]. split; [|reflexivity]. intros p I. cbn in I. intuition congruence.
Qed.
(** Three pairs on top of each other: 20 bytes, 15 values. *)
Example C72_case_pairs : len (pairs 3) = 20 /\ values (pair_value 3) = 15 /\
  decode (pairs 3) 100 max_depth KAny (start 3) = Ok (pair_value 3, 20).
Proof. repeat split. Qed.
(** An error in the middle: the list is made for 9 elements, the second is not there. *)
Example C72_case_error : decodeT (header 11 9 ++ header 2 2 ++ str "ab") 100 max_depth KAny 0 =
  ([AskList 9; AskBytes 2], Err ErrOffset).
Proof. vm_compute. reflexivity. Qed.

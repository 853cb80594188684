(** Lemmas about the JSON model. *)
From Verif Require Import Base NetIP NetText NetTextProofs Spec Inf Ipdb SpecIpdb Json SpecForeign PropsForeign.
From Verif Require SpecJson.
Notation nested := SpecJson.nested.
Open Scope N_scope.

(* ---------- UTF-8 ---------- *)
Lemma b2n_small n : n < 256 -> b2n (n2b n) = n.
Proof. intros H. rewrite b2n_n2b. apply N.mod_small. assumption. Qed.
Lemma EncodeRune_scalar c : scalar c -> EncodeRune c = utf8_enc c.
Proof.
  intros H. unfold EncodeRune, scalar in *.
  replace ((0xd800 <=? c) && (c <? 0xe000) || (0x110000 <=? c)) with false by lia. reflexivity.
Qed.
Ltac no_if :=
  repeat match goal with |- context [if ?b then _ else _] =>
    first [replace b with true by lia | replace b with false by lia] end.
Lemma decode_enc c rest : scalar c -> DecodeRune (utf8_enc c ++ rest) = (c, length (utf8_enc c)).
Proof.
  intros H. unfold utf8_enc, scalar in *.
  destruct (N.ltb_spec c 0x80).
  { cbn [app DecodeRune length]. rewrite b2n_small by lia. replace (c <? 128) with true by lia. reflexivity. }
  destruct (N.ltb_spec c 0x800).
  { cbn [app DecodeRune length]. unfold inr. rewrite !b2n_small by lia. no_if. f_equal. lia. }
  destruct (N.ltb_spec c 0x10000).
  { cbn [app DecodeRune length]. unfold inr. rewrite !b2n_small by lia. 
    replace (224 + c / 4096 <? 128) with false by lia.
    replace ((194 <=? 224 + c / 4096) && (224 + c / 4096 <=? 223)) with false by lia.
    replace ((224 <=? 224 + c / 4096) && (224 + c / 4096 <=? 239)) with true by lia.
    match goal with |- (if ?b then _ else _) = _ => replace b with true end.
    2:{ destruct (N.eqb_spec (224 + c / 4096) 224), (N.eqb_spec (224 + c / 4096) 237); lia. }
    f_equal. lia. }
  cbn [app DecodeRune length]. unfold inr. rewrite !b2n_small by lia.
  replace (240 + c / 262144 <? 128) with false by lia.
  replace ((194 <=? 240 + c / 262144) && (240 + c / 262144 <=? 223)) with false by lia.
  replace ((224 <=? 240 + c / 262144) && (240 + c / 262144 <=? 239)) with false by lia.
  replace ((240 <=? 240 + c / 262144) && (240 + c / 262144 <=? 244)) with true by lia.
  match goal with |- (if ?b then _ else _) = _ => replace b with true end.
  2:{ destruct (N.eqb_spec (240 + c / 262144) 240), (N.eqb_spec (240 + c / 262144) 244); lia. }
  f_equal. lia.
Qed.
Lemma utf8_enc_ne c : exists b r, utf8_enc c = b :: r.
Proof. unfold utf8_enc. repeat match goal with |- context [if ?b then _ else _] => destruct b end; eauto. Qed.
Lemma utf8_enc_high c b r : utf8_enc c = b :: r -> scalar c -> 0x80 <= c -> 0x80 <= b2n b.
Proof.
  unfold utf8_enc, scalar. intros E S L. replace (c <? 0x80) with false in E by lia.
  destruct (N.ltb_spec c 0x800); [injection E as <- _; rewrite b2n_small; lia|].
  destruct (N.ltb_spec c 0x10000); injection E as <- _; rewrite b2n_small; lia.
Qed.

(* ---------- strings ---------- *)
Definition esc1 (c : N) : bytes :=
  if c <? 0x80 then esc_ascii (n2b c)
  else if (c =? 0x2028) || (c =? 0x2029) then str "\u202" ++ [digit (c mod 16)]
  else utf8_enc c.
Lemma esc_step k c r : scalar c -> esc (S k) (utf8_enc c ++ r) = esc1 c ++ esc k r.
Proof.
  intros H. unfold esc1. destruct (N.ltb_spec c 0x80) as [L|L].
  - unfold utf8_enc. replace (c <? 0x80) with true by lia. cbn [app esc]. rewrite b2n_small by lia.
    replace (c <? 0x80) with true by lia. reflexivity.
  - destruct (utf8_enc_ne c) as [b [t E]]. pose proof (utf8_enc_high c b t E H L) as Hb.
    pose proof (decode_enc c r H) as D.
    cbn [esc]. rewrite E in *. cbn [app] in *. replace (b2n b <? 0x80) with false by lia. rewrite D.
    replace ((c =? RuneError) && (length (b :: t) =? 1)%nat) with false.
    2:{ symmetry. destruct (N.eqb_spec c RuneError) as [->|]; [|reflexivity]. vm_compute in E. injection E as <- <-. reflexivity. }
    change (b :: t ++ r) with ((b :: t) ++ r).
    rewrite skipn_app, skipn_all2, Nat.sub_diag by lia. rewrite firstn_app, firstn_all, Nat.sub_diag, firstn_O, app_nil_r.
    cbn [skipn app]. rewrite app_nil_l || idtac.
    destruct ((c =? 8232) || (c =? 8233)); [rewrite <- !app_assoc|]; reflexivity.
Qed.
Lemma esc_all cs : Forall scalar cs -> forall k, (length (flat_map utf8_enc cs) <= k)%nat ->
  esc k (flat_map utf8_enc cs) = flat_map esc1 cs.
Proof.
  induction 1 as [|c cs H _ IH]; intros k L; [destruct k; reflexivity|].
  cbn [flat_map] in *. rewrite app_length in L. destruct (utf8_enc_ne c) as [b [t E]].
  destruct k as [|k]; [rewrite E in L; cbn in L; lia|]. rewrite esc_step by assumption. f_equal. apply IH.
  rewrite E in L. cbn in L. lia.
Qed.
Lemma n2b_b2n b : n2b (b2n b) = b.
Proof. destruct b; reflexivity. Qed.
Lemma unq_step k c r : scalar c ->
  unq (S k) (esc1 c ++ r) = match unq k r with Some (t, rest) => Some (utf8_enc c ++ t, rest) | None => None end.
Proof.
  intros H. unfold esc1. destruct (N.ltb_spec c 0x80) as [L|L].
  - assert (exists b, n2b c = b /\ b2n b = c) as [b [E1 E2]] by (exists (n2b c); split; [reflexivity|apply b2n_small; lia]).
    rewrite E1. unfold utf8_enc. replace (c <? 0x80) with true by lia. rewrite E1.
    rewrite <- E2 in L. clear c H E1 E2.
    destruct b; try (exfalso; vm_compute in L; congruence); reflexivity.
  - destruct (N.eqb_spec c 0x2028) as [->|N1]; [reflexivity|]. destruct (N.eqb_spec c 0x2029) as [->|N2]; [reflexivity|]. cbn [orb].
    destruct (utf8_enc_ne c) as [b [t E]]. pose proof (utf8_enc_high c b t E H L) as Hb.
    pose proof (decode_enc c r H) as D. cbn [unq]. rewrite E in *. cbn [app] in *.
    assert (byte_eqb b x22 = false) as -> by (destruct b; try reflexivity; exfalso; vm_compute in Hb; congruence).
    assert (byte_eqb b x5c = false) as -> by (destruct b; try reflexivity; exfalso; vm_compute in Hb; congruence).
    replace (b2n b <? 0x20) with false by lia. replace (b2n b <? 0x80) with false by lia. rewrite D.
    change (b :: t ++ r) with ((b :: t) ++ r). rewrite skipn_app, skipn_all2, Nat.sub_diag by lia. cbn [skipn app].
    rewrite EncodeRune_scalar, E by assumption. reflexivity.
Qed.
Lemma unq_all cs rest : Forall scalar cs -> forall k, (length cs < k)%nat ->
  unq k (flat_map esc1 cs ++ x22 :: rest) = Some (flat_map utf8_enc cs, rest).
Proof.
  induction 1 as [|c cs H _ IH]; intros k L; (destruct k as [|k]; [lia|]); [reflexivity|].
  cbn [flat_map length] in *. rewrite <- app_assoc, unq_step by assumption. rewrite IH by lia. reflexivity.
Qed.
Lemma esc1_len c : (1 <= length (esc1 c))%nat.
Proof.
  unfold esc1. destruct (c <? 0x80).
  - unfold esc_ascii. repeat match goal with |- context [if ?b then _ else _] => destruct b end; cbn; lia.
  - destruct (_ || _); [cbn; lia|]. destruct (utf8_enc_ne c) as [b [t ->]]. cbn. lia.
Qed.
Lemma unq_enc_str s rest : utf8 s -> exists t, enc_str s = x22 :: t /\ unq (S (length (t ++ rest))) (t ++ rest) = Some (s, rest).
Proof.
  intros [cs [F ->]]. unfold enc_str. rewrite esc_all by (assumption || lia). eexists. split; [reflexivity|].
  rewrite <- app_assoc. cbn [app]. apply unq_all; [assumption|]. rewrite app_length.
  enough (length cs <= length (flat_map esc1 cs))%nat by (cbn; lia). clear. induction cs as [|c cs IH]; [cbn; lia|].
  cbn [flat_map length]. rewrite app_length. pose proof (esc1_len c). lia.
Qed.

(* ---------- numbers ---------- *)
Definition num_stop (s : bytes) : Prop :=
  match s with [] => True | c :: _ => undec c = None /\ c <> x2e /\ c <> x65 /\ c <> x45 end.
Definition number (t : bytes) : Prop :=
  (exists c r, t = c :: r /\ (c = x2d \/ undec c <> None)) /\
  forall rest, num_stop rest -> scan_number (t ++ rest) = Some (t, rest).
Lemma undec_digit_some d : d < 10 -> undec (digit d) = Some d.
Proof. apply undec_digit. Qed.
Lemma take_digits_map l rest : (forall d, In d l -> d < 10) -> num_stop rest ->
  take_digits (map digit l ++ rest) = (map digit l, rest).
Proof.
  intros H S. induction l as [|d l IH].
  - cbn. destruct rest as [|c r]; [reflexivity|]. cbn in S |- *. destruct S as [-> _]. reflexivity.
  - cbn [map app take_digits]. rewrite undec_digit by (apply H; left; reflexivity). rewrite IH; [reflexivity|].
    intros e I. apply H. right. assumption.
Qed.
Lemma digit_zero d : d < 10 -> digit d = x30 -> d = 0.
Proof. intros L E. pose proof (undec_digit d L) as U. rewrite E in U. vm_compute in U. congruence. Qed.
Lemma scan_int_dec n rest : num_stop rest -> scan_int (dec n ++ rest) = Some (dec n, rest).
Proof.
  intros S. unfold dec.
  assert (forall d, In d (digits 10 (Datatypes.S (N.size_nat n)) n) -> d < 10) as HL by (intros d; apply digits_lt; lia).
  pose proof (digits_ne 10 (N.size_nat n) n) as HN.
  pose proof (digits_head 10 (Datatypes.S (N.size_nat n)) ltac:(lia) n) as HH.
  destruct (digits 10 (Datatypes.S (N.size_nat n)) n) as [|d l]; [congruence|].
  specialize (HH d l eq_refl). pose proof (take_digits_map (d :: l) rest HL S) as T.
  assert (d < 10) as Ld by (apply HL; left; reflexivity).
  destruct l as [|e l].
  - destruct (N.eq_dec d 0) as [->|Nd]; [reflexivity|].
    unfold scan_int. rewrite T. cbn [map app].
    destruct (digit d); reflexivity.
  - specialize (HH ltac:(discriminate) (size_lt n) ltac:(lia)).
    unfold scan_int. rewrite T. cbn [map app].
    destruct (digit d) eqn:Ed; try reflexivity. apply digit_zero in Ed; [congruence|assumption].
Qed.
Lemma scan_frac_stop rest : num_stop rest -> scan_frac rest = Some ([], rest).
Proof. destruct rest as [|c r]; [reflexivity|]. intros [_ [H _]]. unfold scan_frac. destruct c; try reflexivity. congruence. Qed.
Lemma scan_exp_stop rest : num_stop rest -> scan_exp rest = Some ([], rest).
Proof. destruct rest as [|c r]; [reflexivity|]. intros [_ [_ [H1 H2]]]. unfold scan_exp. destruct c; try reflexivity; congruence. Qed.
Lemma dec_head n : exists c r, dec n = c :: r /\ undec c <> None.
Proof.
  unfold dec. pose proof (digits_ne 10 (N.size_nat n) n) as HN.
  assert (forall d, In d (digits 10 (S (N.size_nat n)) n) -> d < 10) as HL by (intros d; apply digits_lt; lia).
  destruct (digits 10 (S (N.size_nat n)) n) as [|d l]; [congruence|]. cbn [map].
  exists (digit d), (map digit l). split; [reflexivity|]. rewrite undec_digit by (apply HL; left; reflexivity). discriminate.
Qed.
Lemma number_dec_int z : number (dec_int z).
Proof.
  unfold dec_int. destruct (z <? 0)%Z.
  - split; [eexists _, _; split; [reflexivity|left; reflexivity]|]. intros rest S. unfold scan_number. cbn [app].
    rewrite scan_int_dec, scan_frac_stop, scan_exp_stop by assumption. rewrite !app_nil_r. reflexivity.
  - destruct (dec_head (Z.to_N z)) as [c [r [E U]]]. split; [exists c, r; auto|]. intros rest S. unfold scan_number.
    pose proof (scan_int_dec (Z.to_N z) rest S) as T. rewrite E in *. cbn [app] in *.
    assert (c <> x2d) as Nc by (intros ->; vm_compute in U; congruence).
    destruct c; try congruence; cbv beta iota; rewrite T, scan_frac_stop, scan_exp_stop by assumption; cbn [app]; rewrite !app_nil_r; reflexivity.
Qed.
Lemma parse_uint_dec big n : n < big -> parse_uint big (dec n) = Some n.
Proof.
  intros H. unfold parse_uint. pose proof (scan_dec big n [] H I) as E. rewrite app_nil_r in E. rewrite E.
  destruct (dec_len n) as [k ->]. reflexivity.
Qed.
Lemma parse_int_dec z : (- 2 ^ 63 <= z < 2 ^ 63)%Z -> parse_int (dec_int z) = Some z.
Proof.
  intros H. unfold dec_int. destruct (Z.ltb_spec z 0).
  - unfold parse_int. rewrite parse_uint_dec by lia. f_equal. lia.
  - destruct (dec_head (Z.to_N z)) as [c [r [E U]]]. pose proof (parse_uint_dec (2 ^ 63) (Z.to_N z) ltac:(lia)) as P.
    unfold parse_int. rewrite E in *. assert (c <> x2d) as Nc by (intros ->; vm_compute in U; congruence).
    destruct c; try congruence; rewrite P; f_equal; lia.
Qed.

(* ---------- values ---------- *)
Fixpoint good (j : json) : Prop :=
  match j with
  | JNull | JBool _ => True
  | JNum t => number t
  | JStr s => utf8 s
  | JArr l => (fix all l := match l with [] => True | x :: r => good x /\ all r end) l
  | JObj l => (fix all l := match l with [] => True | x :: r => (utf8 (fst x) /\ good (snd x)) /\ all r end) l
  end.
Lemma good_arr l : good (JArr l) <-> Forall good l.
Proof.
  induction l as [|x l IH].
  - split; intros; [constructor|exact I].
  - assert (good (JArr (x :: l)) = (good x /\ good (JArr l))) as -> by reflexivity. rewrite IH.
    split; [intros []; constructor; assumption|intros H; inversion H; auto].
Qed.
Lemma good_obj l : good (JObj l) <-> Forall (fun kv => utf8 (fst kv) /\ good (snd kv)) l.
Proof.
  induction l as [|x l IH].
  - split; intros; [constructor|exact I].
  - assert (good (JObj (x :: l)) = ((utf8 (fst x) /\ good (snd x)) /\ good (JObj l))) as -> by reflexivity. rewrite IH.
    split; [intros []; constructor; assumption|intros H; inversion H; auto].
Qed.
Definition json_rec' (P : json -> Prop) (H1 : P JNull) (H2 : forall b, P (JBool b)) (H3 : forall t, P (JNum t)) (H4 : forall s, P (JStr s))
  (H5 : forall l, Forall P l -> P (JArr l)) (H6 : forall l, Forall (fun kv => P (snd kv)) l -> P (JObj l)) : forall j, P j :=
  fix go j := match j with
  | JNull => H1 | JBool b => H2 b | JNum t => H3 t | JStr s => H4 s
  | JArr l => H5 l ((fix all l : Forall P l := match l with [] => Forall_nil _ | x :: r => Forall_cons _ (go x) (all r) end) l)
  | JObj l => H6 l ((fix all l : Forall (fun kv => P (snd kv)) l := match l with [] => Forall_nil _ | x :: r => Forall_cons _ (go (snd x)) (all r) end) l)
  end.
Fixpoint jsize (j : json) : nat :=
  match j with
  | JArr l => S ((fix sum l := match l with [] => O | x :: r => S (jsize x + sum r) end) l)
  | JObj l => S ((fix sum l := match l with [] => O | x :: r => S (jsize (snd x) + sum r) end) l)
  | _ => 1%nat
  end.
Definition asize (l : list json) : nat := fold_right (fun x n => S (jsize x + n)) O l.
Definition osize (l : list (bytes * json)) : nat := fold_right (fun x n => S (jsize (snd x) + n)) O l.
Lemma jsize_arr l : jsize (JArr l) = S (asize l).
Proof. reflexivity. Qed.
Lemma jsize_obj l : jsize (JObj l) = S (osize l).
Proof. reflexivity. Qed.

(** First byte of a value. *)
Definition starts (c : byte) : Prop := In c [x22; x5b; x7b; x74; x66; x6e; x2d] \/ undec c <> None.
Lemma enc_starts j : good j -> exists c r, enc j = c :: r /\ starts c.
Proof.
  intros G. destruct j as [|[]| t|s|l|l]; cbn [enc].
  - eexists _, _. split; [reflexivity|]. left. cbn. tauto.
  - eexists _, _. split; [reflexivity|]. left. cbn. tauto.
  - eexists _, _. split; [reflexivity|]. left. cbn. tauto.
  - destruct G as [[c [r [-> U]]] _]. exists c, r. split; [reflexivity|]. destruct U as [->|U]; [left; cbn; tauto|right; assumption].
  - unfold enc_str. eexists _, _. split; [reflexivity|]. left. cbn. tauto.
  - eexists _, _. split; [reflexivity|]. left. cbn. tauto.
  - eexists _, _. split; [reflexivity|]. left. cbn. tauto.
Qed.
Lemma starts_not c : starts c -> is_ws c = false /\ c <> x5d /\ c <> x7d.
Proof.
  intros [H|H].
  - repeat destruct H as [<-|H]; try (split; [reflexivity|split; discriminate]). destruct H.
  - destruct c; try (exfalso; apply H; reflexivity); (split; [reflexivity|split; discriminate]).
Qed.
Lemma starts_num c : (c = x2d \/ undec c <> None) -> byte_eqb c x22 = false /\ byte_eqb c x5b = false /\ byte_eqb c x7b = false /\
  byte_eqb c x74 = false /\ byte_eqb c x66 = false /\ byte_eqb c x6e = false /\ is_ws c = false.
Proof.
  intros [->|H]; [repeat split; reflexivity|].
  destruct c; try (exfalso; apply H; reflexivity); repeat split; reflexivity.
Qed.
Lemma skip_starts c r : starts c -> skip_ws (c :: r) = c :: r.
Proof. intros H. cbn [skip_ws]. destruct (starts_not c H) as [-> _]. reflexivity. Qed.
Lemma byte_neq a b : a <> b -> byte_eqb a b = false.
Proof. destruct (byte_eqb_spec a b); congruence. Qed.

Definition anested (l : list json) : nat := fold_right (fun x m => Nat.max (nested x) m) O l.
Definition onested (l : list (bytes * json)) : nat := fold_right (fun kv m => Nat.max (nested (snd kv)) m) O l.
Lemma nested_arr l : nested (JArr l) = S (anested l).
Proof. reflexivity. Qed.
Lemma nested_obj l : nested (JObj l) = S (onested l).
Proof. reflexivity. Qed.
Lemma elems_ok l : l <> [] -> Forall good l ->
  Forall (fun j => good j -> forall k d rest, (jsize j <= k)%nat -> (nested j <= d)%nat -> num_stop rest -> value k d (enc j ++ rest) = Some (j, rest)) l ->
  forall k d rest, (asize l <= k)%nat -> (anested l <= d)%nat -> elems k d (join x2c (map enc l) ++ x5d :: rest) = Some (l, rest).
Proof.
  induction l as [|x l IH]; intros NE G H k d rest L D; [congruence|]. inversion G as [|? ? Gx Gl]; inversion H as [|? ? Hx Hl]; subst.
  cbn [asize fold_right] in L. fold (asize l) in L. cbn [anested fold_right] in D. fold (anested l) in D. destruct k as [|k]; [lia|]. cbn [elems].
  destruct l as [|y l].
  - cbn [map join]. rewrite (Hx Gx k d (x5d :: rest)) by (first [lia|cbn; repeat split; congruence]). reflexivity.
  - change (join x2c (map enc (x :: y :: l))) with (enc x ++ x2c :: join x2c (map enc (y :: l))).
    rewrite <- app_assoc. cbn [app].
    rewrite (Hx Gx k d) by (first [lia|cbn; repeat split; congruence]).
    cbn [skip_ws].
    change (is_ws x2c) with false. cbv iota.
    change (byte_eqb x2c x5d) with false. change (byte_eqb x2c x2c) with true. cbv iota.
    rewrite (IH ltac:(discriminate) Gl Hl k d rest) by lia. reflexivity.
Qed.
Lemma members_ok l : l <> [] -> Forall (fun kv => utf8 (fst kv) /\ good (snd kv)) l ->
  Forall (fun kv : bytes * json => good (snd kv) -> forall k d rest, (jsize (snd kv) <= k)%nat -> (nested (snd kv) <= d)%nat -> num_stop rest -> value k d (enc (snd kv) ++ rest) = Some (snd kv, rest)) l ->
  forall k d rest, (osize l <= k)%nat -> (onested l <= d)%nat ->
  members k d (join x2c (map (fun kv => enc_str (fst kv) ++ x3a :: enc (snd kv)) l) ++ x7d :: rest) = Some (l, rest).
Proof.
  induction l as [|[key x] l IH]; intros NE G H k d rest L D; [congruence|]. inversion G as [|? ? [Gk Gx] Gl]; inversion H as [|? ? Hx Hl]; subst.
  cbn [fst snd] in *.
  cbn [osize fold_right snd] in L. fold (osize l) in L. cbn [onested fold_right snd] in D. fold (onested l) in D. destruct k as [|k]; [lia|].
  set (f := fun kv : bytes * json => enc_str (fst kv) ++ x3a :: enc (snd kv)) in *.
  assert (forall s, join x2c (map f ((key, x) :: l)) ++ x7d :: rest = s -> exists tail, s = enc_str key ++ x3a :: enc x ++ tail /\
     (l = [] /\ tail = x7d :: rest \/ l <> [] /\ tail = x2c :: join x2c (map f l) ++ x7d :: rest)) as J.
  { intros s <-. destruct l as [|y l].
    - exists (x7d :: rest). cbn [map join]. unfold f at 1. cbn [fst snd]. rewrite <- app_assoc. cbn [app]. auto.
    - exists (x2c :: join x2c (map f (y :: l)) ++ x7d :: rest).
      change (join x2c (map f ((key, x) :: y :: l))) with ((enc_str key ++ x3a :: enc x) ++ x2c :: join x2c (map f (y :: l))).
      rewrite <- ?app_assoc. cbn [app]. rewrite <- ?app_assoc. cbn [app]. split; [reflexivity|]. right. split; [discriminate|reflexivity]. }
  destruct (J _ eq_refl) as [tail [E T]]. rewrite E. clear J E.
  destruct (unq_enc_str key (x3a :: enc x ++ tail) Gk) as [t [Et U]]. rewrite Et. cbn [app members skip_ws].
  change (is_ws x22) with false. cbv iota. change (byte_eqb x22 x22) with true. cbv iota. rewrite U.
  cbn [skip_ws]. change (is_ws x3a) with false. cbv iota. change (byte_eqb x3a x3a) with true. cbv iota.
  assert (num_stop tail) as St by (destruct T as [[_ ->]|[_ ->]]; cbn; repeat split; congruence).
  rewrite (Hx Gx k d tail) by (lia || assumption).
  destruct T as [[-> ->]|[Nl ->]]; cbn [skip_ws].
  - reflexivity.
  - change (is_ws x2c) with false. cbv iota.
    change (byte_eqb x2c x7d) with false. change (byte_eqb x2c x2c) with true. cbv iota.
    rewrite (IH Nl Gl Hl k d rest) by lia. reflexivity.
Qed.

(** Writing a value and reading it back. *)
Lemma value_enc j : good j -> forall k d rest, (jsize j <= k)%nat -> (nested j <= d)%nat -> num_stop rest -> value k d (enc j ++ rest) = Some (j, rest).
Proof.
  induction j as [|b|t|s|l IH|l IH] using json_rec'; intros G k d rest L D S; (destruct k as [|k]; [cbn in L; lia|]).
  - reflexivity.
  - destruct b; reflexivity.
  - destruct G as [[c [r [-> U]]] N]. cbn [enc]. specialize (N rest S). cbn [app] in *. cbn [value skip_ws].
    destruct (starts_num c U) as [E1 [E2 [E3 [E4 [E5 [E6 E7]]]]]]. rewrite E7, E1, E2, E3, E4, E5, E6, N. reflexivity.
  - cbn [enc]. destruct (unq_enc_str s rest G) as [t [-> U]]. cbn [app value skip_ws].
    change (is_ws x22) with false. cbv iota. change (byte_eqb x22 x22) with true. cbv iota. rewrite U. reflexivity.
  - apply good_arr in G. rewrite jsize_arr in L. rewrite nested_arr in D. destruct d as [|d]; [lia|]. cbn [enc app value skip_ws]. rewrite <- app_assoc. cbn [app].
    change (is_ws x5b) with false. cbv iota. change (byte_eqb x5b x22) with false. change (byte_eqb x5b x5b) with true. cbv iota.
    destruct l as [|x l]; [reflexivity|].
    assert (exists c r, join x2c (map enc (x :: l)) ++ x5d :: rest = c :: r /\ starts c) as [c [r [E Sc]]].
    { inversion G as [|? ? Gx _]; subst. destruct (enc_starts x Gx) as [c [r [E Sc]]].
      destruct l as [|y l]; cbn [map join]; rewrite E; cbn [app]; eauto. }
    pose proof (elems_ok (x :: l) ltac:(discriminate) G IH k d rest ltac:(lia) ltac:(lia)) as EL.
    rewrite E in *. rewrite skip_starts by assumption. destruct (starts_not c Sc) as [_ [N1 _]].
    rewrite (byte_neq _ _ N1), EL. reflexivity.
  - apply good_obj in G. rewrite jsize_obj in L. rewrite nested_obj in D. destruct d as [|d]; [lia|]. cbn [enc app value skip_ws]. rewrite <- app_assoc. cbn [app].
    change (is_ws x7b) with false. cbv iota. change (byte_eqb x7b x22) with false. change (byte_eqb x7b x5b) with false. change (byte_eqb x7b x7b) with true. cbv iota.
    destruct l as [|x l]; [reflexivity|].
    pose proof (members_ok (x :: l) ltac:(discriminate) G IH k d rest ltac:(lia) ltac:(lia)) as EL.
    assert (exists r, join x2c (map (fun kv => enc_str (fst kv) ++ x3a :: enc (snd kv)) (x :: l)) ++ x7d :: rest = x22 :: r) as [r E].
    { destruct l; cbn [map join]; eexists; unfold enc_str at 1; cbn [app]; reflexivity. }
    rewrite E in *. cbn [skip_ws]. change (is_ws x22) with false. cbv iota. change (byte_eqb x22 x7d) with false. cbv iota. rewrite EL. reflexivity.
Qed.
Lemma jsize_len j : good j -> (jsize j <= 2 * length (enc j))%nat.
Proof.
  induction j as [|b|t|s|l IH|l IH] using json_rec'; intros G.
  - cbn. lia.
  - destruct b; cbn; lia.
  - destruct G as [[c [r [-> _]]] _]. cbn. lia.
  - cbn. lia.
  - apply good_arr in G. rewrite jsize_arr. cbn [enc length]. rewrite app_length. cbn [length].
    enough (asize l <= 2 * length (join x2c (map enc l)) + 1)%nat by lia.
    induction l as [|x l IHl]; [cbn; lia|]. inversion G as [|? ? Gx Gl]; inversion IH as [|? ? Hx Hl]; subst.
    specialize (IHl Hl Gl). specialize (Hx Gx). cbn [asize fold_right]. fold (asize l).
    destruct l as [|y l]; [cbn [map join asize fold_right]; lia|].
    change (join x2c (map enc (x :: y :: l))) with (enc x ++ x2c :: join x2c (map enc (y :: l))).
    rewrite app_length. cbn [length]. lia.
  - apply good_obj in G. rewrite jsize_obj. cbn [enc length]. rewrite app_length. cbn [length].
    set (f := fun kv : bytes * json => enc_str (fst kv) ++ x3a :: enc (snd kv)).
    enough (osize l <= 2 * length (join x2c (map f l)) + 1)%nat by lia.
    induction l as [|x l IHl]; [cbn; lia|]. inversion G as [|? ? [_ Gx] Gl]; inversion IH as [|? ? Hx Hl]; subst.
    specialize (IHl Hl Gl). specialize (Hx Gx). cbn [osize fold_right]. fold (osize l).
    assert (length (enc (snd x)) + 1 <= length (f x))%nat as Lf by (unfold f; rewrite app_length; cbn [length]; lia).
    destruct l as [|y l]; [cbn [map join osize fold_right]; lia|].
    change (join x2c (map f (x :: y :: l))) with (f x ++ x2c :: join x2c (map f (y :: l))).
    rewrite app_length. cbn [length]. lia.
Qed.
Lemma parse_enc j : good j -> (nested j <= 100)%nat -> parse (enc j) = Some j.
Proof.
  intros G D. unfold parse. pose proof (value_enc j G (2 * length (enc j) + 2) maxNestingDepth []) as V. rewrite app_nil_r in V.
  rewrite V; [reflexivity| |unfold maxNestingDepth; lia|exact I]. pose proof (jsize_len j G). lia.
Qed.

(* ---------- no control characters in the output ---------- *)
Definition printable (s : bytes) : Prop := Forall (fun b => 0x20 <= b2n b) s.
Lemma printable_app a b : printable a -> printable b -> printable (a ++ b).
Proof. intros. apply Forall_app. auto. Qed.
Lemma printable_esc1 c : scalar c -> printable (esc1 c).
Proof.
  intros S. unfold esc1, printable. destruct (N.ltb_spec c 0x80) as [L|L].
  - generalize (n2b c). clear. intros b. destruct b; vm_compute; repeat constructor; discriminate.
  - destruct (N.eqb_spec c 0x2028) as [->|]; [vm_compute; repeat constructor; discriminate|].
    destruct (N.eqb_spec c 0x2029) as [->|]; [vm_compute; repeat constructor; discriminate|]. cbn [orb].
    unfold utf8_enc, scalar in *. replace (c <? 0x80) with false by lia.
    destruct (c <? 0x800) eqn:E1; [repeat (apply Forall_cons; [rewrite b2n_small; lia|]); constructor|].
    destruct (c <? 0x10000) eqn:E2; repeat (apply Forall_cons; [rewrite b2n_small; lia|]); constructor.
Qed.
Lemma printable_enc_str s : utf8 s -> printable (enc_str s).
Proof.
  intros [cs [F ->]]. unfold enc_str. rewrite esc_all by (assumption || lia). constructor; [vm_compute; discriminate|].
  apply printable_app; [|repeat constructor; vm_compute; discriminate].
  induction F as [|c cs H _ IH]; [constructor|]. cbn [flat_map]. apply printable_app; [apply printable_esc1; assumption|assumption].
Qed.
Lemma printable_dec n : printable (dec n).
Proof.
  unfold dec, printable. rewrite Forall_forall. intros b I. apply in_map_iff in I as [d [<- I]].
  apply digits_lt in I; [|lia]. unfold digit. replace (d <? 10) with true by lia. rewrite b2n_small; lia.
Qed.
Lemma printable_dec_int z : printable (dec_int z).
Proof. unfold dec_int. destruct (z <? 0)%Z; [constructor; [vm_compute; discriminate|]|]; apply printable_dec. Qed.

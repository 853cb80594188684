(** Property theorems C54, second part: the metadata of a database may be written by any
    JSON writer.  Vocabulary: SpecJson.v. *)
From Verif Require Import Base NetIP NetText NetTextProofs Spec Inf Ipdb SpecIpdb Json SpecForeign JsonProofs SpecJson.
From Verif Require Import PackProofs PropsIpdb PropsForeign PropsForeign2 Foreign PropsJson.
Open Scope N_scope.

(* ---------- strings ---------- *)
Lemma hex_ok a x : In (a, x) hex_digits -> unhex a = Some x /\ x < 16.
Proof. cbn [hex_digits In]. intros H. repeat (destruct H as [H|H]; [injection H as <- <-; split; [reflexivity|lia]|]). destruct H. Qed.
Lemma unit_ok n t : unit_text n t -> exists u, t = x5c :: x75 :: u /\ n < 65536 /\ forall rest, u4 (u ++ rest) = Some (n, rest).
Proof.
  intros (a & b & c & d & x & y & z & w & -> & A & B & C & D & ->). exists [a; b; c; d]. split; [reflexivity|].
  apply hex_ok in A as [A A'], B as [B B'], C as [C C'], D as [D D']. split; [lia|].
  intros rest. cbn [app u4]. rewrite A, B, C, D. f_equal. f_equal. lia.
Qed.
Lemma unq_char k c t r : char_text c t ->
  unq (S k) (t ++ r) = match unq k r with Some (s, rest) => Some (utf8_enc c ++ s, rest) | None => None end.
Proof.
  intros H. destruct H as [c S L N1 N2|e c I|c t S U|c hi lo t u R Eh El U1 U2].
  - assert (esc1 c = utf8_enc c \/ In c [0x26; 0x3c; 0x3e; 0x2028; 0x2029] ) as [E|I].
    { unfold esc1, utf8_enc. destruct (N.ltb_spec c 0x80) as [Lc|Lc].
      - assert (exists b, n2b c = b /\ b2n b = c) as [b [E1 E2]] by (exists (n2b c); split; [reflexivity|apply b2n_small; lia]).
        rewrite E1. rewrite <- E2 in *. clear c S E1 E2.
        destruct b; try (exfalso; vm_compute in Lc; congruence); try (exfalso; vm_compute in L; congruence);
          try (left; reflexivity); try (right; cbn; tauto); exfalso; try (apply N1; reflexivity); apply N2; reflexivity.
      - destruct (N.eqb_spec c 0x2028) as [->|]; [right; cbn; tauto|]. destruct (N.eqb_spec c 0x2029) as [->|]; [right; cbn; tauto|]. left. reflexivity. }
    + rewrite <- E at 1. apply unq_step. assumption.
    + cbn [In] in I. repeat (destruct I as [<-|I]; [reflexivity|]). destruct I.
  - cbn [short_escapes In] in I. repeat (destruct I as [I|I]; [injection I as <- <-; reflexivity|]). destruct I.
  - destruct (unit_ok _ _ U) as (u & -> & Hn & Hu). cbn [app unq]. rewrite Hu.
    change (byte_eqb x5c x22) with false. change (byte_eqb x5c x5c) with true. change (existsb (byte_eqb x75) [x22; x5c; x2f]) with false.
    change (byte_eqb x75 x62) with false. change (byte_eqb x75 x66) with false. change (byte_eqb x75 x6e) with false.
    change (byte_eqb x75 x72) with false. change (byte_eqb x75 x74) with false. change (byte_eqb x75 x75) with true. cbv iota.
    replace ((0xd800 <=? c) && (c <? 0xe000)) with false by (unfold scalar in S; lia). rewrite EncodeRune_scalar by assumption. reflexivity.
  - destruct (unit_ok _ _ U1) as (u1 & -> & Hn1 & Hu1). destruct (unit_ok _ _ U2) as (u2 & -> & Hn2 & Hu2).
    assert (c - 0x10000 = 1024 * ((c - 0x10000) / 1024) + (c - 0x10000) mod 1024) as Dm by (apply N.div_mod; discriminate).
    assert ((c - 0x10000) mod 1024 < 1024) as Lm by (apply N.mod_upper_bound; discriminate).
    assert ((c - 0x10000) / 1024 < 1024) as Ld by (apply N.div_lt_upper_bound; lia).
    rewrite <- app_assoc. cbn [app unq]. rewrite Hu1.
    change (byte_eqb x5c x22) with false. change (byte_eqb x5c x5c) with true. change (existsb (byte_eqb x75) [x22; x5c; x2f]) with false.
    change (byte_eqb x75 x62) with false. change (byte_eqb x75 x66) with false. change (byte_eqb x75 x6e) with false.
    change (byte_eqb x75 x72) with false. change (byte_eqb x75 x74) with false. change (byte_eqb x75 x75) with true. cbv iota.
    replace ((0xd800 <=? hi) && (hi <? 0xe000)) with true by lia. rewrite Hu2.
    replace ((hi <? 0xdc00) && (0xdc00 <=? lo) && (lo <? 0xe000)) with true by lia.
    replace ((hi - 0xd800) * 1024 + (lo - 0xdc00) + 0x10000) with c by lia.
    rewrite EncodeRune_scalar by (unfold scalar; lia). reflexivity.
Qed.
Lemma char_ne c t : char_text c t -> (1 <= length t)%nat.
Proof.
  intros [c' S _ _ _|e c' I|c' u S U|c' hi lo u v R _ _ U1 U2].
  - destruct (utf8_enc_ne c') as [b [r ->]]. cbn. lia.
  - cbn. lia.
  - destruct (unit_ok _ _ U) as (x & -> & _). cbn. lia.
  - destruct (unit_ok _ _ U1) as (x & -> & _). cbn. lia.
Qed.
Lemma unq_chars cs u : chars_text cs u -> forall k rest, (length u < k)%nat ->
  unq k (u ++ x22 :: rest) = Some (flat_map utf8_enc cs, rest).
Proof.
  induction 1 as [|c cs t u C _ IH]; intros k rest L; (destruct k as [|k]; [lia|]); [reflexivity|].
  rewrite <- app_assoc, (unq_char k c t) by assumption. rewrite app_length in L. pose proof (char_ne _ _ C). rewrite IH by lia. reflexivity.
Qed.
Lemma unq_str s t rest : str_text s t -> exists u, t = x22 :: u /\ unq (S (length (u ++ rest))) (u ++ rest) = Some (s, rest).
Proof.
  intros (cs & u & -> & C & ->). exists (u ++ [x22]). split; [reflexivity|]. rewrite <- app_assoc. cbn [app].
  apply unq_chars; [assumption|]. rewrite app_length. cbn. lia.
Qed.

(* ---------- numbers ---------- *)
Lemma dec_digit_ok b : dec_digit b -> undec b <> None.
Proof. unfold dec_digit, undec. intros H. replace ((48 <=? b2n b) && (b2n b <=? 57)) with true by lia. discriminate. Qed.
Lemma take_ok d rest : Forall dec_digit d -> match rest with [] => True | c :: _ => undec c = None end -> take_digits (d ++ rest) = (d, rest).
Proof.
  intros F S. induction F as [|b d H _ IH].
  - destruct rest as [|c r]; [reflexivity|]. cbn. rewrite S. reflexivity.
  - cbn [app take_digits]. pose proof (dec_digit_ok b H). destruct (undec b); [|congruence]. rewrite IH. reflexivity.
Qed.
Lemma num_ok t : num_text t -> number t.
Proof.
  intros (sg & i & f & e & -> & Sg & I & F & Ex).
  assert (exists c r, i = c :: r /\ dec_digit c) as (c & r & Ei & Dc).
  { destruct I as [->|[[N D] _]]; [exists x30, []; split; [reflexivity|vm_compute; split; discriminate]|].
    destruct i as [|c r]; [congruence|]. inversion D; subst. eauto. }
  split.
  { destruct Sg as [->| ->]; [|eexists _, _; split; [reflexivity|left; reflexivity]]. rewrite Ei. eexists _, _. split; [reflexivity|right; apply dec_digit_ok; assumption]. }
  intros rest S.
  assert (forall x, In x [x65; x45; x2e] -> undec x = None) as Un by (intros x Hx; cbn in Hx; repeat destruct Hx as [<-|Hx]; try reflexivity; destruct Hx).
  assert (match e ++ rest with [] => True | c :: _ => undec c = None end) as Se.
  { destruct Ex as [->|(m & s & d & -> & M & _)]; cbn [app]; [destruct rest; [exact Logic.I|apply S]|]. apply Un. cbn in M |- *. tauto. }
  assert (match f ++ e ++ rest with [] => True | c :: _ => undec c = None end) as Sf.
  { destruct F as [->|(d & -> & _)]; cbn [app]; [assumption|]. reflexivity. }
  assert (scan_int (i ++ f ++ e ++ rest) = Some (i, f ++ e ++ rest)) as Q1.
  { destruct I as [->|[[N D] Z]]; [reflexivity|]. unfold scan_int. rewrite (take_ok i) by assumption.
    rewrite Ei in *. cbn [app]. destruct c; try reflexivity. exfalso. exact (Z r eq_refl). }
  assert (scan_frac (f ++ e ++ rest) = Some (f, e ++ rest)) as Q2.
  { destruct F as [->|(d & -> & Nd & Dd)]; cbn [app].
    - destruct Ex as [->|(m & s & d & -> & M & _)]; cbn [app]; [apply scan_frac_stop; assumption|].
      cbn in M. destruct M as [<-|[<-|[]]]; reflexivity.
    - unfold scan_frac. rewrite take_ok by assumption. destruct d; [congruence|reflexivity]. }
  assert (scan_exp (e ++ rest) = Some (e, rest)) as Q3.
  { destruct Ex as [->|(m & s & d & -> & M & Hs & Nd & Dd)]; [apply scan_exp_stop; assumption|].
    assert (match rest with [] => True | c :: _ => undec c = None end) as Sr by (destruct rest; [exact Logic.I|apply S]).
    unfold scan_exp. destruct d as [|c0 d]; [congruence|].
    assert (c0 <> x2b /\ c0 <> x2d) as [P1 P2] by (inversion Dd as [|? ? D0 _]; subst; split; intros ->; vm_compute in D0; intuition congruence).
    cbn [In] in M, Hs. destruct M as [<-|[<-|[]]]; destruct Hs as [<-|[<-|[<-|[]]]]; cbn [app];
      change (c0 :: d ++ rest) with ((c0 :: d) ++ rest); (rewrite take_ok by assumption; reflexivity) || idtac.
    all: destruct c0; try congruence; cbv iota; rewrite take_ok by assumption; reflexivity. }
  rewrite <- !app_assoc. unfold scan_number. destruct Sg as [->| ->]; cbn [app].
  - rewrite Ei in *. cbn [app] in *. destruct c; try (rewrite Q1, Q2, Q3; reflexivity). exfalso. vm_compute in Dc. intuition congruence.
  - rewrite Q1, Q2, Q3. reflexivity.
Qed.

(* ---------- values ---------- *)
Lemma white_skip w s : white w -> skip_ws (w ++ s) = skip_ws s.
Proof.
  induction 1 as [|b w H _ IH]; [reflexivity|]. cbn [app skip_ws].
  assert (is_ws b = true) as -> by (cbn in H; repeat destruct H as [<-|H]; try reflexivity; destruct H). exact IH.
Qed.
Lemma white_stop w c r : white w -> num_stop (c :: r) -> num_stop (w ++ c :: r).
Proof.
  intros [|b w' H _] S; [exact S|]. cbn in H |- *. repeat destruct H as [<-|H]; try (repeat split; discriminate). destruct H.
Qed.
Lemma writes_starts j t : writes j t -> exists c r, t = c :: r /\ starts c.
Proof.
  intros [ | | |u N|s u (cs & v & _ & _ & ->)|w _|l u _|w _|l u _]; try (eexists _, _; split; [reflexivity|left; cbn; tauto]).
  destruct (num_ok u N) as [(c & r & -> & H) _]. exists c, r. split; [reflexivity|]. destruct H as [->|H]; [left; cbn; tauto|right; assumption].
Qed.
Lemma value_skip k d w s : white w -> value k d (w ++ s) = value k d s.
Proof. intros W. destruct k; [reflexivity|]. cbn [value]. rewrite white_skip by assumption. reflexivity. Qed.
Lemma members_skip k d w s : white w -> members k d (w ++ s) = members k d s.
Proof. intros W. destruct k; [reflexivity|]. cbn [members]. rewrite white_skip by assumption. reflexivity. Qed.
Lemma elems_skip k d w s : white w -> elems k d (w ++ s) = elems k d s.
Proof. intros W. destruct k; [reflexivity|]. cbn [elems]. rewrite value_skip by assumption. reflexivity. Qed.
Lemma stop_close c : In c [x5d; x7d; x2c] -> forall r, num_stop (c :: r).
Proof. cbn. intros H r. repeat destruct H as [<-|H]; try (repeat split; discriminate). destruct H. Qed.
Definition reads (j : json) (t : bytes) : Prop :=
  forall k d rest, (2 * length t <= k)%nat -> num_stop rest -> value k d (t ++ rest) = if (nested j <=? d)%nat then Some (j, rest) else None.
Definition reads_elems (l : list json) (t : bytes) : Prop :=
  forall k d rest, (2 * length t + 1 <= k)%nat -> elems k d (t ++ x5d :: rest) = if (anested l <=? d)%nat then Some (l, rest) else None.
Definition reads_members (l : list (bytes * json)) (t : bytes) : Prop :=
  forall k d rest, (2 * length t + 1 <= k)%nat -> members k d (t ++ x7d :: rest) = if (onested l <=? d)%nat then Some (l, rest) else None.
Lemma max_le a b d : (Nat.max a b <=? d)%nat = ((a <=? d) && (b <=? d))%nat.
Proof. destruct (Nat.leb_spec a d), (Nat.leb_spec b d); cbn [andb]; [apply Nat.leb_le|apply Nat.leb_gt..]; lia. Qed.
Lemma anested_cons x l : anested (x :: l) = Nat.max (nested x) (anested l).
Proof. reflexivity. Qed.
Lemma onested_cons k x l : onested ((k, x) :: l) = Nat.max (nested x) (onested l).
Proof. reflexivity. Qed.
Lemma elems_first l t : elems_text l t -> exists w c r, white w /\ t = w ++ c :: r /\ starts c.
Proof.
  intros [j u w1 w2 W1 W2 H|j u w1 w2 l' v W1 W2 H _]; destruct (writes_starts _ _ H) as (c & r & -> & S); exists w1, c; eexists; (split; [assumption|split; [reflexivity|assumption]]).
Qed.
Lemma str_len s t : str_text s t -> (2 <= length t)%nat.
Proof. intros (cs & u & _ & _ & ->). cbn. rewrite app_length. cbn. lia. Qed.
Lemma member_step k dp kt key w1 w2 w3 rest : white w1 -> white w2 -> str_text key kt ->
  members (S k) dp (w1 ++ kt ++ w2 ++ x3a :: w3 ++ rest) =
  match value k dp (w3 ++ rest) with
  | Some (j, r3) => match skip_ws r3 with
                    | d :: r4 => if byte_eqb d x7d then Some ([(key, j)], r4)
                                 else if byte_eqb d x2c then match members k dp r4 with Some (l, rest) => Some ((key, j) :: l, rest) | None => None end
                                 else None
                    | [] => None end
  | None => None end.
Proof.
  intros W1 W2 K. rewrite members_skip by assumption. destruct (unq_str key kt (w2 ++ x3a :: w3 ++ rest) K) as (u & -> & U).
  cbn [app members skip_ws]. change (is_ws x22) with false. cbv iota. change (byte_eqb x22 x22) with true. cbv iota. rewrite U.
  rewrite white_skip by assumption. cbn [skip_ws]. change (is_ws x3a) with false. cbv iota. change (byte_eqb x3a x3a) with true. cbv iota. reflexivity.
Qed.
Lemma members_first l t : members_text l t -> exists w r, white w /\ t = w ++ x22 :: r.
Proof.
  intros [k kt j u w1 w2 w3 w4 W1 _ _ _ K _|k kt j u w1 w2 w3 w4 l' v' W1 _ _ _ K _ _]; destruct K as (cs & v & _ & _ & ->); exists w1; eexists; (split; [assumption|reflexivity]).
Qed.
Lemma reads_all : (forall j t, writes j t -> reads j t) /\ (forall l t, elems_text l t -> reads_elems l t) /\ (forall l t, members_text l t -> reads_members l t).
Proof.
  apply json_text_ind; unfold reads, reads_elems, reads_members.
  - intros k d rest H _. destruct k as [|k]; [cbn in H; lia|]. reflexivity.
  - intros k d rest H _. destruct k as [|k]; [cbn in H; lia|]. reflexivity.
  - intros k d rest H _. destruct k as [|k]; [cbn in H; lia|]. reflexivity.
  - intros t n k d rest H H0. destruct (num_ok t n) as [(c & r & -> & U) N]. destruct k as [|k]; [cbn in H; lia|]. specialize (N rest H0).
    cbn [app value skip_ws]. destruct (starts_num c U) as [E1 [E2 [E3 [E4 [E5 [E6 E7]]]]]]. cbn [app] in N. rewrite E7, E1, E2, E3, E4, E5, E6, N. reflexivity.
  - intros s t s0 k d rest H _. pose proof (str_len _ _ s0). destruct k as [|k]; [lia|]. destruct (unq_str s t rest s0) as (u & -> & U). cbn [app value skip_ws].
    change (is_ws x22) with false. cbv iota. change (byte_eqb x22 x22) with true. cbv iota. rewrite U. reflexivity.
  - intros w w0 k d rest H _. destruct k as [|k]; [cbn in H; lia|]. cbn [app value skip_ws]. change (is_ws x5b) with false. cbv iota.
    change (byte_eqb x5b x22) with false. change (byte_eqb x5b x5b) with true. cbv iota. destruct d as [|d]; [reflexivity|]. rewrite <- app_assoc, white_skip by assumption. reflexivity.
  - intros l t e H k d rest H0 H1. cbn [length] in H0. rewrite app_length in H0. cbn [length] in H0. destruct k as [|k]; [lia|]. cbn [app value skip_ws]. change (is_ws x5b) with false. cbv iota.
    change (byte_eqb x5b x22) with false. change (byte_eqb x5b x5b) with true. cbv iota. rewrite nested_arr. destruct d as [|d]; [reflexivity|]. cbn [Nat.leb].
    rewrite <- app_assoc. cbn [app].
    rewrite H by lia. destruct (elems_first _ _ e) as (w & c & r & W & -> & S). rewrite <- app_assoc, white_skip by assumption. cbn [app].
    rewrite skip_starts by assumption. destruct (starts_not c S) as [_ [N1 _]]. rewrite (byte_neq _ _ N1). destruct (_ <=? _)%nat; reflexivity.
  - intros w w0 k d rest H _. destruct k as [|k]; [cbn in H; lia|]. cbn [app value skip_ws]. change (is_ws x7b) with false. cbv iota.
    change (byte_eqb x7b x22) with false. change (byte_eqb x7b x5b) with false. change (byte_eqb x7b x7b) with true. cbv iota. destruct d as [|d]; [reflexivity|]. rewrite <- app_assoc, white_skip by assumption. reflexivity.
  - intros l t m H k d rest H0 H1. cbn [length] in H0. rewrite app_length in H0. cbn [length] in H0. destruct k as [|k]; [lia|]. cbn [app value skip_ws]. change (is_ws x7b) with false. cbv iota.
    change (byte_eqb x7b x22) with false. change (byte_eqb x7b x5b) with false. change (byte_eqb x7b x7b) with true. cbv iota. rewrite nested_obj. destruct d as [|d]; [reflexivity|]. cbn [Nat.leb].
    rewrite <- app_assoc. cbn [app].
    rewrite H by lia. destruct (members_first _ _ m) as (w & r & W & ->). rewrite <- app_assoc, white_skip by assumption. cbn [app skip_ws]. change (is_ws x22) with false. cbv iota.
    change (byte_eqb x22 x7d) with false. cbv iota. destruct (_ <=? _)%nat; reflexivity.
  - intros j t w1 w2 W1 W2 W H k d rest H0. rewrite !app_length in H0. destruct k as [|k]; [lia|]. rewrite <- !app_assoc, elems_skip by assumption. cbn [elems].
    rewrite H by (lia || (apply white_stop; [assumption|apply stop_close; cbn; tauto])). rewrite anested_cons. cbn [anested fold_right]. rewrite Nat.max_0_r.
    destruct (_ <=? _)%nat; [|reflexivity]. rewrite white_skip by assumption. reflexivity.
  - intros j t w1 w2 l u W1 W2 W H E H1 k d rest H2. rewrite !app_length in H2. cbn [length] in H2. destruct k as [|k]; [lia|]. rewrite <- !app_assoc, elems_skip by assumption. cbn [elems app].
    rewrite <- ?app_assoc. cbn [app]. rewrite H by (lia || (apply white_stop; [assumption|apply stop_close; cbn; tauto])). rewrite anested_cons, max_le.
    destruct (nested j <=? d)%nat; [|reflexivity]. rewrite white_skip by assumption. cbn [skip_ws andb].
    change (is_ws x2c) with false. cbv iota. change (byte_eqb x2c x5d) with false. change (byte_eqb x2c x2c) with true. cbv iota.
    rewrite H1 by lia. destruct (_ <=? _)%nat; reflexivity.
  - intros k kt j t w1 w2 w3 w4 W1 W2 W3 W4 K W H k0 d rest H0. repeat (rewrite !app_length in H0; cbn [length] in H0). destruct k0 as [|k0]; [lia|]. rewrite <- !app_assoc. cbn [app]. rewrite <- !app_assoc.
    rewrite (member_step k0 d kt k) by assumption. rewrite value_skip by assumption.
    rewrite H by (lia || (apply white_stop; [assumption|apply stop_close; cbn; tauto])). rewrite onested_cons. cbn [onested fold_right]. rewrite Nat.max_0_r.
    destruct (_ <=? _)%nat; [|reflexivity]. rewrite white_skip by assumption. reflexivity.
  - intros k kt j t w1 w2 w3 w4 l u W1 W2 W3 W4 K W H E H0 k0 d rest H1. repeat (rewrite !app_length in H1; cbn [length] in H1). destruct k0 as [|k0]; [lia|]. rewrite <- !app_assoc. cbn [app]. rewrite <- !app_assoc. cbn [app].
    rewrite (member_step k0 d kt k) by assumption. rewrite value_skip by assumption.
    rewrite H by (lia || (apply white_stop; [assumption|apply stop_close; cbn; tauto])). rewrite onested_cons, max_le.
    destruct (nested j <=? d)%nat; [|reflexivity]. rewrite white_skip by assumption. cbn [skip_ws andb].
    change (is_ws x2c) with false. cbv iota. change (byte_eqb x2c x7d) with false. change (byte_eqb x2c x2c) with true. cbv iota.
    rewrite H0 by lia. destruct (_ <=? _)%nat; reflexivity.
Qed.

(** C54: every JSON text is read as the value it stands for, unless arrays and objects are nested more than 10000 deep
    in it; with anything but white space after it it is not accepted. *)
Definition too_deep (j : json) : Prop := 10000 < N.of_nat (nested j).
Lemma parse_text j t w1 w2 : writes j t -> white w1 -> white w2 -> parse (w1 ++ t ++ w2) = if (nested j <=? maxNestingDepth)%nat then Some j else None.
Proof.
  intros W Hw1 Hw2. unfold parse. rewrite value_skip by assumption. rewrite (proj1 reads_all j t W).
  - destruct (_ <=? _)%nat; [|reflexivity]. rewrite <- (app_nil_r w2), white_skip by assumption. reflexivity.
  - rewrite !app_length. lia.
  - rewrite <- (app_nil_r w2). destruct Hw2 as [|b w H _]; [exact I|]. cbn in H |- *. repeat destruct H as [<-|H]; try (repeat split; discriminate). destruct H.
Qed.
Theorem C54_any_text : forall j t w1 w2, writes j t -> white w1 -> white w2 ->
  (~ too_deep j -> parse (w1 ++ t ++ w2) = Some j) /\ (too_deep j -> parse (w1 ++ t ++ w2) = None).
Proof.
  intros j t w1 w2 W Hw1 Hw2. rewrite (parse_text j) by assumption. unfold too_deep, maxNestingDepth.
  destruct (Nat.leb_spec (nested j) (N.to_nat 10000)); split; intros; (reflexivity || (exfalso; lia)).
Qed.
Print Assumptions C54_any_text.
Lemma parse_shallow j t w1 w2 : writes j t -> white w1 -> white w2 -> (nested j <= 100)%nat -> parse (w1 ++ t ++ w2) = Some j.
Proof. intros W H1 H2 D. apply (C54_any_text j t w1 w2 W H1 H2). unfold too_deep. lia. Qed.
(** C54: metadata followed by anything but white space is not accepted. *)
Theorem C54_text_after : forall l t w1 w2 c r, writes (JObj l) t -> white w1 -> white w2 -> ~ In c [x20; x09; x0a; x0d] ->
  unmarshal_meta (w1 ++ t ++ w2 ++ c :: r) = None /\ unmarshal_version (w1 ++ t ++ w2 ++ c :: r) = None.
Proof.
  intros l t w1 w2 c r W Hw1 Hw2 Hc. enough (parse (w1 ++ t ++ w2 ++ c :: r) = None) as E by (unfold unmarshal_meta, unmarshal_version; rewrite E; auto).
  unfold parse. rewrite value_skip by assumption. 
  assert (forall k d rest, (2 * length t <= k)%nat -> value k d (t ++ rest) = if (nested (JObj l) <=? d)%nat then Some (JObj l, rest) else None) as R.
  { clear - W. intros k d rest L. rewrite nested_obj. inversion W as [ | | | | | | |w Wh E1 E2|l' u M E1 E2]; subst.
    - destruct k as [|k]; [cbn in L; lia|]. cbn [app value skip_ws]. change (is_ws x7b) with false. cbv iota.
      change (byte_eqb x7b x22) with false. change (byte_eqb x7b x5b) with false. change (byte_eqb x7b x7b) with true. cbv iota. destruct d as [|d]; [reflexivity|].
      rewrite <- app_assoc, white_skip by assumption. reflexivity.
    - cbn [length] in L. rewrite app_length in L. cbn [length] in L. destruct k as [|k]; [lia|]. cbn [app value skip_ws]. change (is_ws x7b) with false. cbv iota.
      change (byte_eqb x7b x22) with false. change (byte_eqb x7b x5b) with false. change (byte_eqb x7b x7b) with true. cbv iota. destruct d as [|d]; [reflexivity|]. cbn [Nat.leb].
      rewrite <- app_assoc. cbn [app].
      pose proof (proj2 (proj2 reads_all) l u M k d rest ltac:(lia)) as R. rewrite R.
      destruct (members_first _ _ M) as (w & r & Wh & ->). rewrite <- app_assoc, white_skip by assumption. cbn [app skip_ws]. change (is_ws x22) with false. cbv iota.
      change (byte_eqb x22 x7d) with false. cbv iota. destruct (_ <=? _)%nat; reflexivity. }
  rewrite R by (rewrite !app_length; lia). destruct (_ <=? _)%nat; [|reflexivity].
  rewrite white_skip by assumption. cbn [skip_ws]. assert (is_ws c = false) as ->; [|reflexivity].
  destruct (is_ws c) eqn:E; [|reflexivity]. exfalso. apply Hc. unfold is_ws in E. apply existsb_exists in E as (x & Ix & Ex).
  destruct (byte_eqb_spec c x); [subst x|discriminate]. cbn in Ix |- *. tauto.
Qed.
Print Assumptions C54_text_after.

(* ---------- the metadata ---------- *)
(** Two names that differ only in the case of their letters. *)
Definition same_name (a b : bytes) : Prop := map lower a = map lower b.
Definition is_int (z : Z) (j : json) : Prop := j = JNum (dec_int z).
Definition is_texts (l : list bytes) (j : json) : Prop := j = JArr (map JStr l) \/ (l = [] /\ j = JNull).
(** What a member of the metadata object says. *)
Record agrees (m : MetaData) (kv : bytes * json) : Prop := {
  ag_build : same_name (str "build") (fst kv) -> is_int (mBuild m) (snd kv);
  ag_ver : same_name (str "ip_version") (fst kv) -> is_int (Z.of_N (mIPVersion m)) (snd kv);
  ag_lang : same_name (str "languages") (fst kv) -> exists ls, snd kv = JObj (map (fun x => (fst x, JNum (dec_int (snd x)))) ls) /\ mLanguages m = rev ls;
  ag_nodes : same_name (str "node_count") (fst kv) -> is_int (mNodeCount m) (snd kv);
  ag_size : same_name (str "total_size") (fst kv) -> is_int (mTotalSize m) (snd kv);
  ag_fields : same_name (str "fields") (fst kv) -> is_texts (mFields m) (snd kv);
  ag_version : same_name (str "version") (fst kv) -> snd kv = JStr (mVersion m);
  ag_extra : same_name (str "extra") (fst kv) -> is_texts (mExtra m) (snd kv) }.
(** A name is given exactly once. *)
Definition once (name : bytes) (ms : list (bytes * json)) : Prop :=
  exists a kv b, ms = a ++ kv :: b /\ same_name name (fst kv) /\ forall x, In x (a ++ b) -> ~ same_name name (fst x).
Definition meta_names : list bytes :=
  [str "build"; str "ip_version"; str "languages"; str "node_count"; str "total_size"; str "fields"; str "version"; str "extra"].
Definition ascii_key (kv : bytes * json) : Prop := Forall (fun b => b2n b < 0x80) (fst kv).
Record meta_numbers (m : MetaData) : Prop := {
  mn_build : int64 (mBuild m); mn_ver : mIPVersion m < 2 ^ 16; mn_lang : Forall (fun x => int64 (snd x)) (mLanguages m);
  mn_nodes : int64 (mNodeCount m); mn_size : int64 (mTotalSize m) }.

Lemma fold_ascii s : Forall (fun b => b2n b < 0x80) s -> fold_key s = map lower s.
Proof.
  induction 1 as [|b s H _ IH]; [reflexivity|]. cbn [map]. rewrite <- IH.
  destruct b; try reflexivity; exfalso; vm_compute in H; congruence.
Qed.
Lemma key_iff name k : Forall (fun b => b2n b < 0x80) name -> Forall (fun b => b2n b < 0x80) k -> key_is name k = true <-> same_name name k.
Proof.
  intros A B. unfold key_is, same_name. rewrite !fold_ascii by assumption. destruct (bytes_eqb_spec (map lower name) (map lower k)); split; congruence.
Qed.
Lemma is_int_get z j old : is_int z j -> int64 z -> get_int old j = Some z.
Proof. intros -> H. apply (get_int_jint old z H). Qed.
Lemma is_texts_get l j : is_texts l j -> get_strs j = Some l.
Proof.
  intros [->|[-> ->]]; [|reflexivity]. cbn [get_strs]. induction l as [|x l IH]; [reflexivity|]. cbn [map get_all get_str]. rewrite IH. reflexivity.
Qed.
Lemma langs_get ls old : Forall (fun x : bytes * Z => int64 (snd x)) ls ->
  get_map old (JObj (map (fun x => (fst x, JNum (dec_int (snd x)))) ls)) = Some (rev ls ++ old).
Proof.
  intros F. cbn [get_map]. assert (get_all (fun kv : bytes * json => match get_int 0 (snd kv) with Some z => Some (fst kv, z) | None => None end) (map (fun x => (fst x, JNum (dec_int (snd x)))) ls) = Some ls) as ->; [|reflexivity].
  induction F as [|[k z] ls H _ IH]; [reflexivity|]. cbn [map get_all fst snd]. cbn [snd] in H. pose proof (get_int_jint 0 z H) as G. unfold jint in G. rewrite G, IH. reflexivity.
Qed.
(** One member: the field it names has the value of m, the others are as before. *)
Definition field_step {A} (f : MetaData -> A) (name : bytes) (m s s' : MetaData) (kv : bytes * json) : Prop :=
  if key_is name (fst kv) then f s' = f m else f s' = f s.
Lemma set_one m s kv : agrees m kv -> ascii_key kv -> meta_numbers m -> (key_is (str "languages") (fst kv) = true -> mLanguages s = []) ->
  exists s', set_meta s kv = Some s' /\
    field_step mBuild (str "build") m s s' kv /\ field_step mIPVersion (str "ip_version") m s s' kv /\
    field_step mLanguages (str "languages") m s s' kv /\ field_step mNodeCount (str "node_count") m s s' kv /\
    field_step mTotalSize (str "total_size") m s s' kv /\ field_step mFields (str "fields") m s s' kv /\
    field_step mVersion (str "version") m s s' kv /\ field_step mExtra (str "extra") m s s' kv.
Proof.
  intros [A1 A2 A3 A4 A5 A6 A7 A8] Ak [N1 N2 N3 N4 N5] L. destruct kv as [k j]. unfold ascii_key, field_step in *. cbn [fst snd] in *.
  assert (forall name, Forall (fun b => b2n b < 0x80) name -> key_is name k = true -> same_name name k) as Ki by (intros name An; apply key_iff; assumption).
  assert (forall a b, bytes_eqb (fold_key a) (fold_key b) = false -> key_is a k = true -> key_is b k = false) as Dis.
  { intros a b E H. destruct (key_is b k) eqn:Hb; [|reflexivity]. exfalso. unfold key_is in *.
    destruct (bytes_eqb_spec (fold_key a) (fold_key k)) as [Ea|]; [|discriminate]. destruct (bytes_eqb_spec (fold_key b) (fold_key k)) as [Eb|]; [|discriminate].
    rewrite Ea, Eb, bytes_eqb_refl in E. discriminate E. }
  destruct s as [bu iv la nc ts fi ve ex]. cbn [set_meta mLanguages] in *.
  Ltac cl := vm_compute; repeat constructor.
  Ltac others Dis a K := repeat match goal with |- context [key_is ?b ?k] => rewrite (Dis a b eq_refl K) end; cbv iota; repeat split; reflexivity.
  destruct (key_is (str "build") k) eqn:K1.
  { rewrite (is_int_get (mBuild m)) by (assumption || exact (A1 (Ki (str "build") ltac:(cl) K1))). eexists. split; [reflexivity|]. cbn [mBuild mIPVersion mLanguages mNodeCount mTotalSize mFields mVersion mExtra]. others Dis (str "build") K1. }
  destruct (key_is (str "ip_version") k) eqn:K2.
  { rewrite (A2 (Ki (str "ip_version") ltac:(cl) K2)). change (JNum (dec_int (Z.of_N (mIPVersion m)))) with (jint (Z.of_N (mIPVersion m))). rewrite get_uint_jint by assumption.
    eexists. split; [reflexivity|]. cbn [mBuild mIPVersion mLanguages mNodeCount mTotalSize mFields mVersion mExtra]. others Dis (str "ip_version") K2. }
  destruct (key_is (str "languages") k) eqn:K3.
  { destruct (A3 (Ki (str "languages") ltac:(cl) K3)) as (ls & -> & Er). rewrite Er in N3. apply Forall_rev in N3. rewrite rev_involutive in N3.
    rewrite langs_get by assumption. rewrite (L eq_refl), app_nil_r, <- Er.
    eexists. split; [reflexivity|]. cbn [mBuild mIPVersion mLanguages mNodeCount mTotalSize mFields mVersion mExtra]. others Dis (str "languages") K3. }
  destruct (key_is (str "node_count") k) eqn:K4.
  { rewrite (is_int_get (mNodeCount m)) by (assumption || exact (A4 (Ki (str "node_count") ltac:(cl) K4))). eexists. split; [reflexivity|]. cbn [mBuild mIPVersion mLanguages mNodeCount mTotalSize mFields mVersion mExtra]. others Dis (str "node_count") K4. }
  destruct (key_is (str "total_size") k) eqn:K5.
  { rewrite (is_int_get (mTotalSize m)) by (assumption || exact (A5 (Ki (str "total_size") ltac:(cl) K5))). eexists. split; [reflexivity|]. cbn [mBuild mIPVersion mLanguages mNodeCount mTotalSize mFields mVersion mExtra]. others Dis (str "total_size") K5. }
  destruct (key_is (str "fields") k) eqn:K6.
  { rewrite (is_texts_get (mFields m)) by (assumption || exact (A6 (Ki (str "fields") ltac:(cl) K6))). eexists. split; [reflexivity|]. cbn [mBuild mIPVersion mLanguages mNodeCount mTotalSize mFields mVersion mExtra]. others Dis (str "fields") K6. }
  destruct (key_is (str "version") k) eqn:K7.
  { rewrite (A7 (Ki (str "version") ltac:(cl) K7)). eexists. split; [reflexivity|]. cbn [mBuild mIPVersion mLanguages mNodeCount mTotalSize mFields mVersion mExtra]. others Dis (str "version") K7. }
  destruct (key_is (str "extra") k) eqn:K8.
  { rewrite (is_texts_get (mExtra m)) by (assumption || exact (A8 (Ki (str "extra") ltac:(cl) K8))). eexists. split; [reflexivity|]. cbn [mBuild mIPVersion mLanguages mNodeCount mTotalSize mFields mVersion mExtra]. cbv iota; repeat split; reflexivity. }
  eexists. split; [reflexivity|]. cbv iota; repeat split; reflexivity.
Qed.

Definition kept {A} (f : MetaData -> A) (name : bytes) (m s s' : MetaData) (ms : list (bytes * json)) : Prop :=
  f s = f m \/ (exists kv, In kv ms /\ key_is name (fst kv) = true) -> f s' = f m.
Lemma kept_cons {A} (f : MetaData -> A) name m s s1 s' kv ms : field_step f name m s s1 kv -> kept f name m s1 s' ms -> kept f name m s s' (kv :: ms).
Proof.
  unfold field_step, kept. intros S K H. apply K. destruct (key_is name (fst kv)) eqn:Q; [left; exact S|].
  destruct H as [H|(x & [<-|Ix] & Kx)]; [left; congruence|congruence|right; eauto].
Qed.
Local Opaque key_is str set_meta.
Lemma set_keeps m (Nm : meta_numbers m) ms : Forall (agrees m) ms -> Forall ascii_key ms -> forall s,
  (exists n, n + length (filter (fun kv => key_is (str "languages") (fst kv)) ms) <= 1 /\ (n = 0 -> mLanguages s = []))%nat ->
  exists s', set_all set_meta s ms = Some s' /\
    kept mBuild (str "build") m s s' ms /\
    kept mIPVersion (str "ip_version") m s s' ms /\
    kept mLanguages (str "languages") m s s' ms /\
    kept mNodeCount (str "node_count") m s s' ms /\
    kept mTotalSize (str "total_size") m s s' ms /\
    kept mFields (str "fields") m s s' ms /\
    kept mVersion (str "version") m s s' ms /\
    kept mExtra (str "extra") m s s' ms.
Proof.
  induction ms as [|kv ms IH]; intros F Ka s (n & Hc & Hl).
  - exists s. split; [reflexivity|]. unfold kept. repeat split; (intros [E|(kv & [] & _)]; exact E).
  - inversion F as [|? ? Fa Fr]; inversion Ka as [|? ? Kb Kr]; subst. cbn [filter] in Hc.
    destruct (set_one m s kv Fa Kb Nm) as (s1 & E1 & S1 & S2 & S3 & S4 & S5 & S6 & S7 & S8).
    { intros K. rewrite K in Hc. cbn [length] in Hc. apply Hl. lia. }
    destruct (IH Fr Kr s1) as (s2 & E2 & R1 & R2 & R3 & R4 & R5 & R6 & R7 & R8).
    { destruct (key_is (str "languages") (fst kv)) eqn:K; cbn [length] in Hc.
      - exists 1%nat. split; [lia|]. intros Q. discriminate Q.
      - exists n. split; [assumption|]. unfold field_step in S3. rewrite K in S3. rewrite S3. assumption. }
    exists s2. split; [cbn [set_all]; rewrite E1; exact E2|].
    split; [exact (kept_cons _ _ _ _ _ _ _ _ S1 R1)|].
    split; [exact (kept_cons _ _ _ _ _ _ _ _ S2 R2)|].
    split; [exact (kept_cons _ _ _ _ _ _ _ _ S3 R3)|].
    split; [exact (kept_cons _ _ _ _ _ _ _ _ S4 R4)|].
    split; [exact (kept_cons _ _ _ _ _ _ _ _ S5 R5)|].
    split; [exact (kept_cons _ _ _ _ _ _ _ _ S6 R6)|].
    split; [exact (kept_cons _ _ _ _ _ _ _ _ S7 R7)|].
    exact (kept_cons _ _ _ _ _ _ _ _ S8 R8).
Qed.
(** C54: the metadata may be written by any program: white space, order of the members, case of
    the names, escapes and members of other names make no difference. *)
Theorem C54_any_metadata : forall m ms t w1 w2, writes (JObj ms) t -> white w1 -> white w2 -> ~ too_deep (JObj ms) ->
  meta_numbers m -> Forall (agrees m) ms -> Forall ascii_key ms -> Forall (fun name => once name ms) meta_names ->
  unmarshal_meta (w1 ++ t ++ w2) = Some m.
Proof.
  intros m ms t w1 w2 W H1 H2 Dp Nm F Ka O. unfold unmarshal_meta. rewrite (proj1 (C54_any_text (JObj ms) t w1 w2 W H1 H2) Dp).
  assert (forall name, In name meta_names -> Forall (fun b => b2n b < 0x80) name) as Am.
  { intros name I. cbn [meta_names In] in I. repeat (destruct I as [<-|I]; [vm_compute; repeat constructor|]). destruct I. }
  rewrite Forall_forall in O, Ka.
  assert (forall name, In name meta_names -> exists kv, In kv ms /\ key_is name (fst kv) = true) as Ex.
  { intros name I. destruct (O name I) as (a & kv & b & -> & S & _). exists kv. assert (In kv (a ++ kv :: b)) as Ik by (apply in_or_app; right; left; reflexivity).
    split; [assumption|]. apply key_iff; [apply Am; assumption|apply (Ka kv Ik)|assumption]. }
  destruct (set_keeps m Nm ms F ltac:(apply Forall_forall; assumption) (mkMeta 0 0 [] 0 0 [] [] [])) as (s & -> & R1 & R2 & R3 & R4 & R5 & R6 & R7 & R8).
  { exists 0%nat. split; [|reflexivity]. destruct (O (str "languages") ltac:(cbn; tauto)) as (a & kv & b & -> & S & N).
    rewrite filter_app, app_length. cbn [filter].
    assert (forall l, incl l (a ++ b) -> incl l (a ++ kv :: b) -> filter (fun kv : bytes * json => key_is (str "languages") (fst kv)) l = []) as Z.
    { intros l I1 I2. induction l as [|x l IH]; [reflexivity|]. cbn [filter].
      destruct (key_is (str "languages") (fst x)) eqn:K; [exfalso|apply IH; intros y Iy; [apply I1|apply I2]; right; assumption].
      apply (N x (I1 x (or_introl eq_refl))). apply key_iff; [apply Am; cbn; tauto|apply (Ka x (I2 x (or_introl eq_refl)))|assumption]. }
    rewrite (Z a), (Z b).
    - destruct (key_is (str "languages") (fst kv)); cbn [length]; lia.
    - apply incl_appr, incl_refl.
    - intros y Iy. apply in_or_app. right. right. assumption.
    - apply incl_appl, incl_refl.
    - apply incl_appl, incl_refl. }
  unfold kept in *. cbn [meta_names] in Ex.
  destruct s as [bu iv la nc ts fi ve ex], m as [bu' iv' la' nc' ts' fi' ve' ex']. cbn [mBuild mIPVersion mLanguages mNodeCount mTotalSize mFields mVersion mExtra] in *.
  rewrite R1 by (right; apply Ex; cbn; tauto). rewrite R2 by (right; apply Ex; cbn; tauto). rewrite R3 by (right; apply Ex; cbn; tauto).
  rewrite R4 by (right; apply Ex; cbn; tauto). rewrite R5 by (right; apply Ex; cbn; tauto). rewrite R6 by (right; apply Ex; cbn; tauto).
  rewrite R7 by (right; apply Ex; cbn; tauto). rewrite R8 by (right; apply Ex; cbn; tauto). reflexivity.
Qed.
Local Transparent key_is str set_meta.
Print Assumptions C54_any_metadata.

(** C54, finding: nesting is limited to 10000, so that a description with one member more, whatever its name,
    is refused when its value is too deep; C54_any_metadata reads such texts otherwise. *)
Fixpoint deep (n : nat) : json := match n with O => JNull | S k => JArr [deep k] end.
Fixpoint deep_text (n : nat) : bytes := match n with O => str "null" | S k => x5b :: deep_text k ++ [x5d] end.
Lemma deep_writes n : writes (deep n) (deep_text n) /\ nested (deep n) = n.
Proof.
  induction n as [|n [IH Hn]]; [split; [apply w_null|reflexivity]|]. split.
  - cbn [deep deep_text]. apply w_arr. rewrite <- (app_nil_r (deep_text n)). apply (e_one _ _ [] []); [constructor|constructor|assumption].
  - cbn [deep]. rewrite nested_arr, anested_cons. rewrite Hn. cbn [anested fold_right]. lia.
Qed.
Theorem C54_too_deep_refuted : forall k kt ms t, str_text k kt -> members_text ms t ->
  unmarshal_meta (x7b :: (kt ++ x3a :: deep_text (N.to_nat 10000) ++ x2c :: t) ++ [x7d]) = None.
Proof.
  intros k kt ms t K M. set (n := N.to_nat 10000). destruct (deep_writes n) as [W D].
  assert (writes (JObj ((k, deep n) :: ms)) (x7b :: (kt ++ x3a :: deep_text n ++ x2c :: t) ++ [x7d])) as Wo.
  { apply w_obj. apply (m_more k kt (deep n) (deep_text n) [] [] [] []); try (constructor; fail); assumption. }
  pose proof (proj2 (C54_any_text _ _ [] [] Wo (Forall_nil _) (Forall_nil _))) as P. cbn [app] in P. rewrite app_nil_r in P.
  unfold unmarshal_meta. rewrite P; [reflexivity|]. unfold too_deep. rewrite nested_obj, onested_cons. rewrite D. unfold n. lia.
Qed.
Print Assumptions C54_too_deep_refuted.

(* ---------- a case ---------- *)
Lemma dec_num z : num_text (dec_int z).
Proof.
  assert (forall n, digits_text (dec n) /\ (dec n = [x30] \/ forall r, dec n <> x30 :: r)) as D.
  { intros n. pose proof (scan_int_dec n [] I) as Sc. rewrite app_nil_r in Sc. split.
    - split; [destruct (dec_head n) as (c & r & -> & _); discriminate|]. unfold dec. apply Forall_forall. intros b H. apply in_map_iff in H as (d & <- & H).
      apply digits_lt in H; [|lia]. unfold dec_digit, digit. replace (d <? 10) with true by lia. rewrite b2n_small; lia.
    - destruct (dec n) as [|c r] eqn:E; [right; discriminate|]. destruct (byte_eqb_spec c x30) as [->|N]; [|right; congruence].
      left. cbn [scan_int] in Sc. congruence. }
  unfold dec_int. destruct (z <? 0)%Z.
  - destruct (D (Z.to_N (- z))) as [H [E|N]].
    + exists [x2d], (dec (Z.to_N (- z))), [], []. rewrite !app_nil_r. repeat split; auto.
    + exists [x2d], (dec (Z.to_N (- z))), [], []. rewrite !app_nil_r. repeat split; auto.
  - destruct (D (Z.to_N z)) as [H [E|N]].
    + exists [], (dec (Z.to_N z)), [], []. rewrite !app_nil_r. repeat split; auto.
    + exists [], (dec (Z.to_N z)), [], []. rewrite !app_nil_r. repeat split; auto.
Qed.
Lemma raw_str s : Forall (fun b => 0x20 <= b2n b < 0x80 /\ b <> x22 /\ b <> x5c) s -> str_text s (x22 :: s ++ [x22]).
Proof.
  intros F. exists (map b2n s), s. split; [|split; [|reflexivity]].
  - induction F as [|b s [H _] _ IH]; [reflexivity|]. cbn [map flat_map]. rewrite <- IH. unfold utf8_enc. replace (b2n b <? 0x80) with true by lia. rewrite n2b_b2n. reflexivity.
  - induction F as [|b s (H & N1 & N2) _ IH]; [constructor|]. cbn [map]. change (b :: s) with ([b] ++ s). constructor; [|exact IH].
    assert (utf8_enc (b2n b) = [b]) as E by (unfold utf8_enc; replace (b2n b <? 0x80) with true by lia; rewrite n2b_b2n; reflexivity).
    rewrite <- E. constructor; [left; lia|lia| |].
    + intros Q. apply N1. rewrite <- (n2b_b2n b), Q. reflexivity.
    + intros Q. apply N2. rewrite <- (n2b_b2n b), Q. reflexivity.
Qed.
Definition quoted (s : bytes) : bytes := x22 :: s ++ [x22].
Definition any_meta : MetaData := mkMeta (-7) 3 [(str "CN", 0%Z)] 2 40 [str "country"; [xf0; x9f; x98; x80]] (str "v") [].
Definition any_members : list (bytes * json) :=
  [(str "Version", JStr (str "v")); (str "comment", JNull); (str "IP_version", JNum (str "3")); (str "fields", JArr [JStr (str "country"); JStr [xf0; x9f; x98; x80]]);
   (str "languages", JObj [(str "CN", JNum (str "0"))]); (str "node_count", JNum (str "2")); (str "total_size", JNum (str "40"));
   (str "extra", JArr []); (str "BUILD", JNum (str "-7"))].
Definition any_text : bytes := str "{ ""Version"":""v"", ""comment"" : null,""IP_version"":3,""fields"":[""country"", ""\ud83D\ude00""],""languages"":{""CN"":0},""node_count"":2,""total_size"":40,""extra"":[ ],""BUILD"":-7}".
Example C54_any_case : writes (JObj any_members) any_text /\ ~ too_deep (JObj any_members) /\ meta_numbers any_meta /\ Forall (agrees any_meta) any_members /\
  Forall ascii_key any_members /\ Forall (fun name => once name any_members) meta_names.
Proof.
  assert (forall s, Forall (fun b => 0x20 <= b2n b < 0x80 /\ b <> x22 /\ b <> x5c) s -> str_text s (quoted s)) as Q by exact raw_str.
  Ltac asc := repeat (constructor; [split; [vm_compute; split; [discriminate|reflexivity]|split; discriminate]|]); constructor.
  Ltac wh := vm_compute; repeat (constructor; [tauto|]); constructor.
  assert (white [] /\ white [x20]) as [W0 W1] by (split; wh).
  split.
  { set (T := [x20] ++ quoted (str "Version") ++ [] ++ x3a :: [] ++ quoted (str "v") ++ [] ++ x2c ::
      [x20] ++ quoted (str "comment") ++ [x20] ++ x3a :: [x20] ++ str "null" ++ [] ++ x2c ::
      [] ++ quoted (str "IP_version") ++ [] ++ x3a :: [] ++ str "3" ++ [] ++ x2c ::
      [] ++ quoted (str "fields") ++ [] ++ x3a :: [] ++ (x5b :: ([] ++ quoted (str "country") ++ [] ++ x2c :: [x20] ++ (x22 :: (str "\ud83D\ude00" ++ []) ++ [x22]) ++ []) ++ [x5d]) ++ [] ++ x2c ::
      [] ++ quoted (str "languages") ++ [] ++ x3a :: [] ++ (x7b :: ([] ++ quoted (str "CN") ++ [] ++ x3a :: [] ++ str "0" ++ []) ++ [x7d]) ++ [] ++ x2c ::
      [] ++ quoted (str "node_count") ++ [] ++ x3a :: [] ++ str "2" ++ [] ++ x2c ::
      [] ++ quoted (str "total_size") ++ [] ++ x3a :: [] ++ str "40" ++ [] ++ x2c ::
      [] ++ quoted (str "extra") ++ [] ++ x3a :: [] ++ (x5b :: [x20] ++ [x5d]) ++ [] ++ x2c ::
      [] ++ quoted (str "BUILD") ++ [] ++ x3a :: [] ++ str "-7" ++ []).
    assert (any_text = x7b :: T ++ [x7d]) as -> by (vm_compute; reflexivity).
    apply w_obj. unfold T, any_members.
    assert (forall z t, dec_int z = t -> writes (JNum t) t) as Nu by (intros z t <-; apply w_num, dec_num).
    apply m_more; [assumption..|apply Q; asc|apply w_str, Q; asc|].
    apply m_more; [assumption..|apply Q; asc|apply w_null|].
    apply m_more; [assumption..|apply Q; asc|apply (Nu 3%Z); reflexivity|].
    apply m_more; [assumption..|apply Q; asc| |].
    { apply w_arr. apply e_more; [assumption..|apply w_str, Q; asc|]. apply e_one; [assumption..|]. apply w_str.
      exists [0x1f600], (str "\ud83D\ude00" ++ []). split; [reflexivity|]. split; [|reflexivity].
      constructor; [|constructor]. apply (ct_pair 0x1f600 0xd83d 0xde00 (str "\ud83D") (str "\ude00")); [lia|reflexivity|reflexivity| |].
      - exists x64, x38, x33, x44, 13, 8, 3, 13. split; [reflexivity|]. cbn. intuition.
      - exists x64, x65, x30, x30, 13, 14, 0, 0. split; [reflexivity|]. cbn. intuition. }
    apply m_more; [assumption..|apply Q; asc| |].
    { apply w_obj. apply m_one; [assumption..|apply Q; asc|apply (Nu 0%Z); reflexivity]. }
    apply m_more; [assumption..|apply Q; asc|apply (Nu 2%Z); reflexivity|].
    apply m_more; [assumption..|apply Q; asc|apply (Nu 40%Z); reflexivity|].
    apply m_more; [assumption..|apply Q; asc|apply w_arr0; assumption|].
    apply m_one; [assumption..|apply Q; asc|apply (Nu (-7)%Z); reflexivity]. }
  split; [vm_compute; discriminate|].
  split; [constructor; cbn [any_meta mBuild mIPVersion mLanguages mNodeCount mTotalSize]; try (unfold int64; lia); constructor; [unfold int64; cbn; lia|constructor]|].
  split.
  { unfold any_members. repeat (apply Forall_cons; [constructor; cbn [fst snd]; intros S;
      first [discriminate S|reflexivity|left; reflexivity|exists [(str "CN", 0%Z)]; split; reflexivity]|]). constructor. }
  split; [unfold any_members; repeat (constructor; [vm_compute; repeat constructor|]); constructor|].
  unfold meta_names.
  assert (forall n name, match nth_error any_members n with Some kv => same_name name (fst kv) | None => False end ->
    forallb (fun i => (i =? n)%nat || negb (match nth_error any_members i with Some kv => bytes_eqb (map lower name) (map lower (fst kv)) | None => false end)) (seq 0 (length any_members)) = true ->
    once name any_members) as O.
  { intros n name H F. destruct (nth_error any_members n) as [kv|] eqn:E; [|destruct H]. rewrite forallb_forall in F.
    exists (firstn n any_members), kv, (skipn (S n) any_members).
    pose proof (nth_error_split _ _ E) as (l1 & l2 & El & Ln). rewrite El.
    rewrite firstn_app, <- Ln, Nat.sub_diag, firstn_all. cbn [firstn]. rewrite app_nil_r.
    replace (skipn (S (length l1)) (l1 ++ kv :: l2)) with l2 by (clear; induction l1; [reflexivity|assumption]).
    split; [reflexivity|]. split; [assumption|]. intros x Ix Sx.
    assert (exists i, i <> n /\ nth_error any_members i = Some x) as (i & Ni & Ei).
    { apply in_app_or in Ix as [Ix|Ix]; apply In_nth_error in Ix as (i & Ei).
      - assert (i < length l1)%nat by (apply nth_error_Some; congruence). exists i. split; [lia|]. rewrite El, nth_error_app1 by assumption. assumption.
      - exists (S (length l1) + i)%nat. split; [lia|]. rewrite El, nth_error_app2 by lia. replace (S (length l1) + i - length l1)%nat with (S i) by lia. assumption. }
    specialize (F i). rewrite Ei in F. assert (In i (seq 0 (length any_members))) as Is.
    { apply in_seq. assert (i < length any_members)%nat by (apply nth_error_Some; congruence). lia. }
    specialize (F Is). unfold same_name in Sx. rewrite Sx, bytes_eqb_refl in F. destruct (Nat.eqb_spec i n); [contradiction|discriminate F]. }
  repeat constructor; [apply (O 8%nat)|apply (O 2%nat)|apply (O 4%nat)|apply (O 5%nat)|apply (O 6%nat)|apply (O 3%nat)|apply (O 0%nat)|apply (O 7%nat)]; vm_compute; reflexivity.
Qed.

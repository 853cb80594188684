(** C54: metadata with texts that are not UTF-8.  Statements use [repaired] below and the model
    of encoding/json. *)
From Verif Require Import Base NetIP NetText Spec Inf Ipdb SpecIpdb Json SpecForeign JsonProofs SpecJson.
From Verif Require Import PropsJson PropsJson2.
Open Scope N_scope.

(** [t] is [s] with every byte that does not start a UTF-8 character replaced by the character
    U+FFFD, reading from the left. *)
Inductive repaired : bytes -> bytes -> Prop :=
| rp_nil : repaired [] []
| rp_char c s t : scalar c -> repaired s t -> repaired (utf8_enc c ++ s) (utf8_enc c ++ t)
| rp_byte b s t : (forall c r, scalar c -> b :: s <> utf8_enc c ++ r) -> repaired s t ->
    repaired (b :: s) ([xef; xbf; xbd] ++ t).

Lemma n2b_eq n b : n = b2n b -> n2b n = b.
Proof. intros ->. apply n2b_b2n. Qed.
Lemma inr_spec lo hi b : inr lo hi b = true <-> lo <= b2n b <= hi.
Proof. unfold inr. rewrite andb_true_iff, N.leb_le, N.leb_le. reflexivity. Qed.
Lemma dm n a b : 0 < n -> b < n -> (a * n + b) / n = a /\ (a * n + b) mod n = b.
Proof.
  intros H L. rewrite N.add_comm. split.
  - rewrite N.div_add by lia. rewrite N.div_small by lia. lia.
  - rewrite N.mod_add by lia. apply N.mod_small. lia.
Qed.
Lemma decode_inv b r : (exists c rest, scalar c /\ b :: r = utf8_enc c ++ rest) \/ (DecodeRune (b :: r) = (RuneError, 1%nat) /\ 0x80 <= b2n b).
Proof.
  cbn [DecodeRune]. destruct (N.ltb_spec (b2n b) 0x80) as [L|L].
  { left. exists (b2n b), r. split; [left; lia|]. unfold utf8_enc. replace (b2n b <? 0x80) with true by lia. cbn. now rewrite n2b_b2n. }
  destruct (inr 0xc2 0xdf b) eqn:E2.
  { apply inr_spec in E2. destruct r as [|b1 r]; [auto|]. destruct (inr 0x80 0xbf b1) eqn:E; [|auto]. apply inr_spec in E.
    left. exists ((b2n b - 0xc0) * 64 + (b2n b1 - 0x80)), r. split; [left; lia|].
    destruct (dm 64 (b2n b - 0xc0) (b2n b1 - 0x80)) as [D1 D2]; [lia|lia|].
    unfold utf8_enc. rewrite D1, D2. replace (_ <? 0x80) with false by lia. replace (_ <? 0x800) with true by lia.
    cbn. rewrite (n2b_eq _ b), (n2b_eq _ b1); [reflexivity|lia|lia]. }
  destruct (inr 0xe0 0xef b) eqn:E3.
  { apply inr_spec in E3. destruct r as [|b1 [|b2 r]]; [auto|auto|].
    destruct (inr (if b2n b =? 224 then 160 else 128) (if b2n b =? 237 then 159 else 191) b1) eqn:E1; [|auto].
    destruct (inr 0x80 0xbf b2) eqn:Eb2; [|auto]. cbn [andb]. apply inr_spec in E1, Eb2.
    left. exists ((b2n b - 0xe0) * 4096 + (b2n b1 - 0x80) * 64 + (b2n b2 - 0x80)), r.
    assert (0x80 <= b2n b1 <= 0xbf) by (destruct (b2n b =? 224), (b2n b =? 237); lia).
    replace ((b2n b - 0xe0) * 4096 + (b2n b1 - 0x80) * 64 + (b2n b2 - 0x80))
      with (((b2n b - 0xe0) * 64 + (b2n b1 - 0x80)) * 64 + (b2n b2 - 0x80)) by lia.
    destruct (dm 64 ((b2n b - 0xe0) * 64 + (b2n b1 - 0x80)) (b2n b2 - 0x80)) as [D1 D2]; [lia|lia|].
    destruct (dm 64 (b2n b - 0xe0) (b2n b1 - 0x80)) as [D3 D4]; [lia|lia|].
    set (c := ((b2n b - 0xe0) * 64 + (b2n b1 - 0x80)) * 64 + (b2n b2 - 0x80)) in *.
    assert (D5 : c / 4096 = b2n b - 0xe0) by (change 4096 with (64 * 64); rewrite <- N.div_div by lia; rewrite D1; exact D3).
    assert (R : 0x800 <= c < 0x10000 /\ scalar c).
    { unfold c, scalar. destruct (N.eqb_spec (b2n b) 224), (N.eqb_spec (b2n b) 237); lia. }
    split; [apply R|]. unfold utf8_enc. rewrite D1, D2, D4, D5. replace (c <? 0x80) with false by lia. replace (c <? 0x800) with false by lia.
    replace (c <? 0x10000) with true by lia. cbn. rewrite (n2b_eq _ b), (n2b_eq _ b1), (n2b_eq _ b2); [reflexivity|lia|lia|lia]. }
  destruct (inr 0xf0 0xf4 b) eqn:E4; [|auto].
  apply inr_spec in E4. destruct r as [|b1 [|b2 [|b3 r]]]; [auto|auto|auto|].
  destruct (inr (if b2n b =? 240 then 144 else 128) (if b2n b =? 244 then 143 else 191) b1) eqn:E1; [|auto].
  destruct (inr 0x80 0xbf b2) eqn:Eb2; [|auto]. destruct (inr 0x80 0xbf b3) eqn:Eb3; [|auto]. cbn [andb]. apply inr_spec in E1, Eb2, Eb3.
  assert (0x80 <= b2n b1 <= 0xbf) by (destruct (b2n b =? 240), (b2n b =? 244); lia).
  left. exists ((((b2n b - 0xf0) * 64 + (b2n b1 - 0x80)) * 64 + (b2n b2 - 0x80)) * 64 + (b2n b3 - 0x80)), r.
  destruct (dm 64 (((b2n b - 0xf0) * 64 + (b2n b1 - 0x80)) * 64 + (b2n b2 - 0x80)) (b2n b3 - 0x80)) as [D1 D2]; [lia|lia|].
  destruct (dm 64 ((b2n b - 0xf0) * 64 + (b2n b1 - 0x80)) (b2n b2 - 0x80)) as [D3 D4]; [lia|lia|].
  destruct (dm 64 (b2n b - 0xf0) (b2n b1 - 0x80)) as [D5 D6]; [lia|lia|].
  set (c := (((b2n b - 0xf0) * 64 + (b2n b1 - 0x80)) * 64 + (b2n b2 - 0x80)) * 64 + (b2n b3 - 0x80)) in *.
  assert (D7 : c / 4096 = (b2n b - 0xf0) * 64 + (b2n b1 - 0x80)) by (change 4096 with (64 * 64); rewrite <- N.div_div by lia; rewrite D1; exact D3).
  assert (D8 : c / 262144 = b2n b - 0xf0) by (change 262144 with (4096 * 64); rewrite <- N.div_div by lia; rewrite D7; exact D5).
  assert (R : 0x10000 <= c < 0x110000).
  { unfold c. destruct (N.eqb_spec (b2n b) 240), (N.eqb_spec (b2n b) 244); lia. }
  split; [right; lia|]. unfold utf8_enc. rewrite D1, D2, D4, D6, D7, D8 || (rewrite D8, D7, D1, D6, D4, D2). replace (c <? 0x80) with false by lia. replace (c <? 0x800) with false by lia.
  replace (c <? 0x10000) with false by lia. cbn. rewrite (n2b_eq _ b), (n2b_eq _ b1), (n2b_eq _ b2), (n2b_eq _ b3); [reflexivity|lia|lia|lia|lia].
Qed.
Lemma prefix_dec b r : (exists c rest, scalar c /\ b :: r = utf8_enc c ++ rest) \/ (forall c rest, scalar c -> b :: r <> utf8_enc c ++ rest).
Proof.
  destruct (decode_inv b r) as [H|[H L]]; [now left|]. right. intros c rest S E. rewrite E, decode_enc in H by assumption.
  injection H as -> H. discriminate H.
Qed.
Lemma bad_decode b r : (forall c rest, scalar c -> b :: r <> utf8_enc c ++ rest) -> DecodeRune (b :: r) = (RuneError, 1%nat) /\ 0x80 <= b2n b.
Proof. intros H. destruct (decode_inv b r) as [(c & rest & S & E)|G]; [destruct (H c rest S E)|exact G]. Qed.
Lemma enc_prefix_inj c c' r r' : scalar c -> scalar c' -> utf8_enc c ++ r = utf8_enc c' ++ r' -> c = c' /\ r = r'.
Proof.
  intros S S' E. pose proof (decode_enc c r S) as D. rewrite E, decode_enc in D by assumption. injection D as -> _.
  split; [reflexivity|]. now apply app_inv_head in E.
Qed.

(** C54: every text has exactly one repaired form; it is UTF-8, and it is the text itself
    exactly for the texts that are UTF-8. *)
Theorem C54_repaired : forall s, exists t, repaired s t /\ utf8 t /\ (forall t', repaired s t' -> t' = t) /\ (t = s <-> utf8 s).
Proof.
  intros s.
  assert (T : exists t, repaired s t).
  { remember (length s) as n eqn:En. assert (Hn : (length s <= n)%nat) by lia. clear En. revert s Hn.
    induction n as [|n IH]; intros [|b s] Hn; cbn in Hn; try lia; [exists []; constructor|exists []; constructor|].
    destruct (prefix_dec b s) as [(c & r & S & E)|B].
    - destruct (utf8_enc_ne c) as (b' & u & Ec). destruct (IH r) as [t Ht].
      { assert (length (b :: s) = length (utf8_enc c ++ r)) by now rewrite E. rewrite app_length, Ec in H. cbn in H. lia. }
      exists (utf8_enc c ++ t). rewrite E. now constructor.
    - destruct (IH s) as [t Ht]; [lia|]. exists ([xef; xbf; xbd] ++ t). now constructor. }
  destruct T as [t Ht]. exists t. split; [exact Ht|].
  assert (U : forall s t, repaired s t -> utf8 t).
  { clear. intros s t H. induction H as [|c s t S H (cs & F & ->)|b s t B H (cs & F & ->)].
    - exists []. split; constructor.
    - exists (c :: cs). split; [now constructor|reflexivity].
    - exists (0xfffd :: cs). split; [constructor; [right; lia|assumption]|reflexivity]. }
  assert (Fn : forall s t, repaired s t -> forall t', repaired s t' -> t' = t).
  { clear. intros s t H. induction H as [|c s t S H IH|b s t B H IH]; intros t' H'.
    - inversion H' as [|c s t0 S H0 E|]; [reflexivity|]. destruct (utf8_enc_ne c) as (b & u & Ec). rewrite Ec in E. discriminate E.
    - inversion H' as [E|c' s' t0 S' H0 E|b s' t0 B H0 E].
      + destruct (utf8_enc_ne c) as (b & u & Ec). rewrite Ec in E. discriminate E.
      + destruct (enc_prefix_inj c' c s' s S' S E) as [-> ->]. f_equal. now apply IH.
      + destruct (B c s S). now symmetry.
    - inversion H' as [|c' s' t0 S' H0 E|b' s' t0 B' H0 E].
      + destruct (B c' s' S'). now symmetry.
      + subst. f_equal. now apply IH. }
  split; [eapply U, Ht|]. split; [intros t' H'; eapply Fn; eassumption|]. split.
  - intros <-. eapply U, Ht.
  - intros (cs & F & ->). symmetry. eapply Fn; [exact Ht|]. clear Ht t. induction F as [|c cs S F IH]; [constructor|]. cbn [flat_map]. now constructor.
Qed.
Print Assumptions C54_repaired.

(* ---------- what Marshal writes ---------- *)
Lemma esc1_text c : scalar c -> char_text c (esc1 c).
Proof.
  intros S. unfold esc1. destruct (N.ltb_spec c 0x80) as [L|L].
  - assert (exists b, n2b c = b /\ b2n b = c) as [b [E1 E2]] by (exists (n2b c); split; [reflexivity|apply b2n_small; lia]).
    rewrite E1. subst c.
    unfold esc_ascii. destruct (html_safe b) eqn:Hs.
    + unfold html_safe in Hs. apply andb_true_iff in Hs as [Lb Hn]. apply N.leb_le in Lb.
      replace [b] with (utf8_enc (b2n b)) by (unfold utf8_enc; replace (b2n b <? 0x80) with true by lia; now rewrite n2b_b2n).
      apply ct_raw; [assumption|assumption| |]; intros E; [apply (b2n_inj b x22) in E|apply (b2n_inj b x5c) in E]; subst b; discriminate Hn.
    + clear E1. destruct (byte_eqb_spec b x5c) as [->|N1]; [apply ct_short; cbn; tauto|].
      destruct (byte_eqb_spec b x22) as [->|N2]; [apply ct_short; cbn; tauto|]. cbn [orb].
      destruct (byte_eqb_spec b x0a) as [->|N3]; [apply ct_short; cbn; tauto|].
      destruct (byte_eqb_spec b x0d) as [->|N4]; [apply ct_short; cbn; tauto|].
      destruct (byte_eqb_spec b x09) as [->|N5]; [apply ct_short; cbn; tauto|].
      assert (H16 : forall n, n < 16 -> In (digit n, n) hex_digits).
      { intros n Hn. assert (In n [0;1;2;3;4;5;6;7;8;9;10;11;12;13;14;15]) as I by (cbn; lia).
        cbn in I. repeat (destruct I as [<-|I]; [vm_compute; tauto|]). destruct I. }
      apply ct_unit; [assumption|].
      exists x30, x30, (digit (b2n b / 16)), (digit (b2n b mod 16)), 0, 0, (b2n b / 16), (b2n b mod 16).
      split; [reflexivity|]. split; [cbn; tauto|]. split; [cbn; tauto|].
      split; [apply H16; apply N.div_lt_upper_bound; lia|]. split; [apply H16; apply N.mod_lt; lia|].
      pose proof (N.div_mod (b2n b) 16). lia.
  - destruct (N.eqb_spec c 0x2028) as [->|N1].
    { apply ct_unit; [assumption|]. exists x32, x30, x32, x38, 2, 0, 2, 8. cbn. repeat split; tauto. }
    destruct (N.eqb_spec c 0x2029) as [->|N2].
    { apply ct_unit; [assumption|]. exists x32, x30, x32, x39, 2, 0, 2, 9. cbn. repeat split; tauto. }
    cbn [orb]. apply ct_raw; [assumption|lia|lia|lia].
Qed.
Lemma esc_text s t : repaired s t -> exists cs, t = flat_map utf8_enc cs /\ forall k, (length s <= k)%nat -> chars_text cs (esc k s).
Proof.
  intros H. induction H as [|c s t S H (cs & -> & IH)|b s t B H (cs & -> & IH)].
  - exists []. split; [reflexivity|]. intros [|k] _; constructor.
  - exists (c :: cs). split; [reflexivity|]. intros k L. rewrite app_length in L. destruct (utf8_enc_ne c) as (b & u & Ec).
    destruct k as [|k]; [rewrite Ec in L; cbn in L; lia|]. rewrite esc_step by assumption. constructor; [now apply esc1_text|].
    apply IH. rewrite Ec in L. cbn in L. lia.
  - exists (0xfffd :: cs). split; [reflexivity|]. intros [|k] L; cbn in L; [lia|].
    destruct (bad_decode b s B) as [D Lb]. cbn [esc]. replace (b2n b <? 0x80) with false by lia. rewrite D.
    change ((RuneError =? RuneError) && (1 =? 1)%nat) with true. cbv iota. constructor; [|apply IH; lia].
    apply ct_unit; [right; lia|]. exists x66, x66, x66, x64, 15, 15, 15, 13. cbn. repeat split; tauto.
Qed.
Lemma enc_str_text s t : repaired s t -> str_text t (enc_str s).
Proof.
  intros H. destruct (esc_text s t H) as (cs & -> & C). exists cs, (esc (length s) s). split; [reflexivity|]. split; [apply C; lia|reflexivity].
Qed.
Lemma white_nil : white []. Proof. constructor. Qed.
Lemma elems_enc l' l : Forall2 (fun j' j => writes j' (enc j)) l' l -> l <> [] -> elems_text l' (join x2c (map enc l)).
Proof.
  induction 1 as [|j' j l' l H F IH]; [congruence|]. intros _. destruct l as [|j2 l].
  - inversion F; subst. cbn. rewrite <- (app_nil_r (enc j)). apply (e_one j' (enc j) [] []); auto using white_nil.
  - cbn [map join]. change (match map enc l with [] => enc j2 | _ :: _ => enc j2 ++ x2c :: join x2c (map enc l) end) with (join x2c (map enc (j2 :: l))).
    apply (e_more j' (enc j) [] [] l'); auto using white_nil. apply IH. discriminate.
Qed.
Definition member_enc (kv : bytes * json) : bytes := enc_str (fst kv) ++ x3a :: enc (snd kv).
Lemma members_enc l' l : Forall2 (fun kv' kv => str_text (fst kv') (enc_str (fst kv)) /\ writes (snd kv') (enc (snd kv))) l' l -> l <> [] ->
  members_text l' (join x2c (map member_enc l)).
Proof.
  induction 1 as [|[k' j'] [k j] l' l [H1 H2] F IH]; [congruence|]. intros _. cbn [fst snd] in *. destruct l as [|j2 l].
  - inversion F; subst. cbn. unfold member_enc. cbn [fst snd]. rewrite <- (app_nil_r (enc j)). apply (m_one k' (enc_str k) j' (enc j) [] [] [] []); auto using white_nil.
  - change (join x2c (map member_enc ((k, j) :: j2 :: l))) with (member_enc (k, j) ++ x2c :: join x2c (map member_enc (j2 :: l))).
    unfold member_enc at 1. cbn [fst snd]. rewrite <- app_assoc. cbn [app].
    apply (m_more k' (enc_str k) j' (enc j) [] [] [] [] l'); auto using white_nil. apply IH. discriminate.
Qed.
Lemma obj_enc l' l : Forall2 (fun kv' kv => str_text (fst kv') (enc_str (fst kv)) /\ writes (snd kv') (enc (snd kv))) l' l ->
  writes (JObj l') (enc (JObj l)).
Proof.
  intros F. destruct l as [|kv l].
  - inversion F; subst. apply (w_obj0 []), white_nil.
  - change (enc (JObj (kv :: l))) with (x7b :: join x2c (map member_enc (kv :: l)) ++ [x7d]). apply w_obj, members_enc; [assumption|discriminate].
Qed.
Lemma strs_enc n l' l : Forall2 repaired l l' -> writes (jstrs n l') (enc (jstrs n l)).
Proof.
  intros F. destruct F as [|s t l l' H F].
  - destruct n; [constructor|]. apply (w_arr0 []), white_nil.
  - cbn [jstrs]. apply (w_arr (map JStr (t :: l')) (join x2c (map enc (map JStr (s :: l))))). apply elems_enc; [|discriminate].
    assert (F' : Forall2 repaired (s :: l) (t :: l')) by now constructor. revert F'. generalize (s :: l) (t :: l'). clear.
    intros l l' F. induction F as [|s t l l' H F IH]; constructor; [|assumption]. apply w_str, enc_str_text, H.
Qed.
Lemma int_enc z : writes (jint z) (enc (jint z)).
Proof. apply w_num, dec_num. Qed.
Lemma ascii_repaired s : Forall (fun b => b2n b < 0x80) s -> repaired s s.
Proof.
  intros F. destruct (C54_repaired s) as (t & H & _ & _ & I). destruct I as [_ I]. rewrite (I (utf8_ascii s F)) in H. exact H.
Qed.
Ltac name := apply enc_str_text, ascii_repaired; vm_compute; repeat constructor.

(** Metadata whose numbers fit the Go types and that names one language, with any texts; and
    the same with its texts repaired. *)
Definition repaired_meta (m m' : MetaData) : Prop :=
  mBuild m' = mBuild m /\ mIPVersion m' = mIPVersion m /\ mNodeCount m' = mNodeCount m /\ mTotalSize m' = mTotalSize m /\
  Forall2 (fun kv kv' => repaired (fst kv) (fst kv') /\ snd kv' = snd kv) (mLanguages m) (mLanguages m') /\
  Forall2 repaired (mFields m) (mFields m') /\ repaired (mVersion m) (mVersion m') /\ Forall2 repaired (mExtra m) (mExtra m').
Definition meta_numbers_fit (m : MetaData) : Prop :=
  int64 (mBuild m) /\ mIPVersion m < 2 ^ 16 /\ (exists k v, mLanguages m = [(k, v)] /\ int64 v) /\ int64 (mNodeCount m) /\ int64 (mTotalSize m).
Lemma repaired_utf8 s t : repaired s t -> utf8 t.
Proof. intros H. destruct (C54_repaired s) as (t' & _ & U & Fn & _). now rewrite (Fn t H). Qed.
Lemma repaired_all l l' : Forall2 repaired l l' -> Forall utf8 l'.
Proof. induction 1; constructor; [eapply repaired_utf8; eassumption|assumption]. Qed.

(** C54: whatever bytes the texts of the metadata are, what is read back is the metadata with its
    texts repaired: the same if they are UTF-8, silently changed if not (C54_repaired). *)
Theorem C54_any_bytes_metadata : forall nf ne m m', meta_numbers_fit m -> repaired_meta m m' ->
  unmarshal_meta (marshal_meta nf ne m) = Some m'.
Proof.
  intros nf ne m m' (N1 & N2 & (k & v & N3 & N3') & N4 & N5) (E1 & E2 & E3 & E4 & FL & FF & RV & FE).
  assert (Fit : meta_fits m').
  { rewrite N3 in FL. inversion FL as [|kv [k' v'] l l' [H1 H2] Fn El El']; subst. inversion Fn; subst. cbn in H1, H2. subst v'.
    constructor; rewrite ?E1, ?E2, ?E3, ?E4; try assumption; [|eapply repaired_all; eassumption|eapply repaired_utf8; eassumption|eapply repaired_all; eassumption].
    exists k', v. rewrite <- El'. repeat split; try apply N3'. eapply repaired_utf8; eassumption. }
  rewrite <- (C54_metadata_round_trip nf ne m' Fit).
  assert (W : writes (meta_json nf ne m') (marshal_meta nf ne m)).
  { unfold marshal_meta, meta_json. rewrite E1, E2, E3, E4. apply obj_enc.
    repeat (apply Forall2_cons; [split; [cbn [fst]; name|cbn [snd]; first [apply int_enc|apply strs_enc; assumption|apply w_str, enc_str_text; assumption|idtac]]|]); [|constructor].
    apply obj_enc. clear - FL. induction FL as [|[k v] [k' v'] l l' [H1 H2] F IH]; [constructor|]. cbn in H1, H2. subst v'. cbn [map fst snd].
    constructor; [split; [apply enc_str_text, H1|apply int_enc]|exact IH]. }
  unfold unmarshal_meta.
  pose proof (parse_shallow _ _ [] [] W white_nil white_nil (meta_nested nf ne m')) as P. cbn [app] in P. rewrite app_nil_r in P. rewrite P.
  pose proof Fit as Fit'.
  unfold marshal_meta. rewrite parse_enc; [reflexivity| |apply meta_nested].
  destruct Fit as [H1 H2 [k0 [v0 [H3 [H4 H5]]]] H6 H7 H8 H9 H10]. unfold meta_json. rewrite H3. apply good_obj.
  repeat (apply Forall_cons; [split; [cbn [fst]; ascii|cbn [snd]; first [apply good_jint|apply good_jstrs; assumption|assumption|idtac]]|]); [|constructor].
  apply good_obj. constructor; [|constructor]. split; [assumption|apply good_jint].
Qed.
Print Assumptions C54_any_bytes_metadata.

(** C54: the same for the version line of a text scan. *)
Definition repaired_version (v v' : VersionInfo) : Prop :=
  vIpType v' = vIpType v /\ vCount v' = vCount v /\ vBuild v' = vBuild v /\ repaired (vVersion v) (vVersion v') /\
  Forall2 repaired (vLanguages v) (vLanguages v') /\ Forall2 repaired (vExtra v) (vExtra v').
Theorem C54_any_bytes_version : forall nl ne v v', int64 (vIpType v) -> vCount v < 2 ^ 32 -> int64 (vBuild v) -> repaired_version v v' ->
  unmarshal_version (marshal_version nl ne v) = Some (Some v').
Proof.
  intros nl ne v v' N1 N2 N3 (E1 & E2 & E3 & RV & FL & FE).
  assert (Fit : version_fits v').
  { constructor; rewrite ?E1, ?E2, ?E3; try assumption; [eapply repaired_utf8; eassumption|eapply repaired_all; eassumption|eapply repaired_all; eassumption]. }
  rewrite <- (C54_version_round_trip nl ne v' Fit).
  assert (W : writes (version_json nl ne v') (marshal_version nl ne v)).
  { unfold marshal_version, version_json. rewrite E1, E2, E3. apply obj_enc.
    repeat (apply Forall2_cons; [split; [cbn [fst]; name|cbn [snd]; first [apply int_enc|apply strs_enc; assumption|apply w_str, enc_str_text; assumption]]|]). constructor. }
  unfold unmarshal_version.
  pose proof (parse_shallow _ _ [] [] W white_nil white_nil (version_nested nl ne v')) as P. cbn [app] in P. rewrite app_nil_r in P. rewrite P.
  unfold marshal_version. rewrite parse_enc; [reflexivity| |apply version_nested].
  destruct Fit as [H1 H2 H3 H4 H5 H6]. apply good_obj.
  repeat (apply Forall_cons; [split; [cbn [fst]; ascii|cbn [snd]; first [apply good_jint|apply good_jstrs; assumption|assumption]]|]). constructor.
Qed.
Print Assumptions C54_any_bytes_version.

(** Concrete metadata: a column name with a lone continuation byte, a truncated character and
    good characters. *)
Definition odd_name : bytes := [x61; x80; xe4; xb8; xc3; xa9].
Lemma odd_repaired : repaired odd_name ([x61] ++ [xef; xbf; xbd] ++ [xef; xbf; xbd] ++ [xef; xbf; xbd] ++ [xc3; xa9]).
Proof.
  assert (B : forall b s, DecodeRune (b :: s) = (RuneError, 1%nat) -> forall c r, scalar c -> b :: s <> utf8_enc c ++ r).
  { intros b s H c r S E. rewrite E, decode_enc in H by assumption. injection H as -> H. discriminate H. }
  apply (rp_char 0x61 [x80; xe4; xb8; xc3; xa9]); [left; lia|].
  apply rp_byte; [apply B; reflexivity|]. apply rp_byte; [apply B; reflexivity|]. apply rp_byte; [apply B; reflexivity|].
  apply (rp_char 0xe9 [] []); [left; lia|constructor].
Qed.
Example C54_any_bytes_case : exists m m', mFields m = [odd_name] /\ meta_numbers_fit m /\ repaired_meta m m' /\ m' <> m.
Proof.
  exists (mkMeta 1700000000 3 [(str "CN", 0%Z)] 5 100 [odd_name] (str "v") []),
    (mkMeta 1700000000 3 [(str "CN", 0%Z)] 5 100 [[x61] ++ [xef; xbf; xbd] ++ [xef; xbf; xbd] ++ [xef; xbf; xbd] ++ [xc3; xa9]] (str "v") []).
  split; [reflexivity|]. split.
  { repeat split; cbn; unfold int64; try lia. exists (str "CN"), 0%Z. split; [reflexivity|lia]. }
  split; [|discriminate].
  unfold repaired_meta. cbn [mBuild mIPVersion mNodeCount mTotalSize mLanguages mFields mVersion mExtra].
  do 4 (split; [reflexivity|]). split; [constructor; [|constructor]; split; [apply ascii_repaired; vm_compute; repeat constructor|reflexivity]|].
  split; [constructor; [exact odd_repaired|constructor]|]. split; [apply ascii_repaired; vm_compute; repeat constructor|constructor].
Qed.

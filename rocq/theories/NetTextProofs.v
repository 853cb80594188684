(** Printing an address or network and parsing the text gives it back. *)
From Verif Require Import Base NetIP IpNet Spec IpNetProofs IpNetProofs2.
From Verif Require Export NetText.
Open Scope N_scope.

(** ** Numbers *)

Definition valb (base acc : N) (l : list N) : N := fold_left (fun a d => a * base + d) l acc.

Lemma valb_ge base l : 1 <= base -> forall acc, acc <= valb base acc l.
Proof.
  intros B. induction l as [|d l IH]; intros acc; [cbn; lia|].
  cbn [valb fold_left]. fold (valb base (acc * base + d) l). specialize (IH (acc * base + d)). nia.
Qed.

Lemma scan_digits und base big l rest :
  1 <= base -> (forall d, In d l -> und (digit d) = Some d) ->
  forall acc cnt, valb base acc l < big ->
  scan_num und base big acc cnt (map digit l ++ rest) = scan_num und base big (valb base acc l) (cnt + length l) rest.
Proof.
  intros B. induction l as [|d l IH]; intros HU acc cnt HV.
  - cbn [map app length valb fold_left]. rewrite Nat.add_0_r. reflexivity.
  - cbn [map app scan_num length]. rewrite (HU d) by (left; reflexivity).
    cbn [valb fold_left] in HV. fold (valb base (acc * base + d) l) in HV.
    pose proof (valb_ge base l B (acc * base + d)).
    destruct (N.leb_spec big (acc * base + d)); [lia|].
    rewrite IH; [|intros x Hx; apply HU; right; assumption|assumption].
    cbn [valb fold_left]. fold (valb base (acc * base + d) l). f_equal. lia.
Qed.

Lemma valb_snoc base acc l d : valb base acc (l ++ [d]) = valb base acc l * base + d.
Proof. unfold valb. rewrite fold_left_app. reflexivity. Qed.

Lemma digits_val base fuel : 2 <= base -> forall n, n < 2 ^ N.of_nat fuel -> valb base 0 (digits base fuel n) = n.
Proof.
  intros B. induction fuel as [|k IH]; intros n Hn.
  - cbn in Hn. cbn. lia.
  - cbn [digits]. destruct (N.ltb_spec n base).
    + cbn. lia.
    + rewrite valb_snoc, IH.
      * pose proof (N.div_mod n base). lia.
      * rewrite Nat2N.inj_succ, N.pow_succ_r' in Hn.
        apply N.div_lt_upper_bound; [lia|]. pose proof (pow_pos (N.of_nat k)). nia.
Qed.

Lemma digits_lt base fuel : 1 <= base -> forall n d, In d (digits base fuel n) -> d < base.
Proof.
  intros B. induction fuel as [|k IH]; intros n d H; [destruct H|].
  cbn [digits] in H. destruct (N.ltb_spec n base).
  - destruct H as [<-|[]]. assumption.
  - apply in_app_or in H. destruct H as [H|[<-|[]]]; [eauto|]. apply N.mod_lt. lia.
Qed.

Lemma digits_ne base fuel n : digits base (S fuel) n <> [].
Proof. cbn [digits]. destruct (n <? base); [discriminate|]. intros H. apply app_eq_nil in H. destruct H; discriminate. Qed.

Lemma digits_head base fuel : 1 <= base -> forall n d l, digits base fuel n = d :: l -> l <> [] -> n < 2 ^ N.of_nat fuel -> 2 <= base -> d <> 0.
Proof.
  intros B. induction fuel as [|k IH]; intros n d l E HL Hn B2; [discriminate E|].
  cbn [digits] in E. destruct (N.ltb_spec n base).
  - injection E as <- <-. contradiction.
  - assert (H2 : n / base < 2 ^ N.of_nat k).
    { rewrite Nat2N.inj_succ, N.pow_succ_r' in Hn.
      apply N.div_lt_upper_bound; [lia|]. pose proof (pow_pos (N.of_nat k)). nia. }
    assert (H3 : 1 <= n / base) by (apply N.div_le_lower_bound; lia).
    destruct (digits base k (n / base)) as [|x r] eqn:E2.
    + exfalso. destruct k as [|k]; [|exact (digits_ne _ _ _ E2)]. cbn in H2. lia.
    + cbn in E. injection E as <- <-. destruct r as [|y r].
      * pose proof (digits_val base k B2 (n / base) H2) as V. rewrite E2 in V. cbn in V. lia.
      * eapply IH; eauto. discriminate.
Qed.

Lemma size_lt n : n < 2 ^ N.of_nat (S (N.size_nat n)).
Proof.
  destruct n as [|p]; [cbn; lia|].
  pose proof (N.size_gt (N.pos p)) as H. rewrite Nat2N.inj_succ, N.pow_succ_r'.
  replace (N.of_nat (N.size_nat (N.pos p))) with (N.size (N.pos p)).
  - lia.
  - cbn. clear. induction p; cbn; lia.
Qed.

Lemma undec_digit d : d < 10 -> undec (digit d) = Some d.
Proof.
  intros H. unfold undec, digit. destruct (N.ltb_spec d 10); [|lia]. rewrite b2n_n2b, N.mod_small by lia.
  destruct (N.leb_spec 48 (48 + d)); [|lia]. destruct (N.leb_spec (48 + d) 57); [|lia]. cbn [andb]. f_equal. lia.
Qed.
Lemma unhex_digit d : d < 16 -> unhex (digit d) = Some d.
Proof.
  intros H. unfold unhex, digit. destruct (N.ltb_spec d 10); rewrite b2n_n2b, N.mod_small by lia.
  - destruct (N.leb_spec 48 (48 + d)); [|lia]. destruct (N.leb_spec (48 + d) 57); [|lia]. cbn [andb]. f_equal. lia.
  - destruct (N.leb_spec 48 (87 + d)); [|lia]. destruct (N.leb_spec (87 + d) 57); [lia|]. cbn [andb].
    destruct (N.leb_spec 97 (87 + d)); [|lia]. destruct (N.leb_spec (87 + d) 102); [|lia]. cbn [andb]. f_equal. lia.
Qed.

(** A text that does not go on with a digit. *)
Definition stops (und : byte -> option N) (s : bytes) : Prop := match s with [] => True | c :: _ => und c = None end.

Lemma scan_stops und base big acc cnt s : stops und s -> scan_num und base big acc cnt s = Some (acc, cnt, s).
Proof. destruct s as [|c r]; [reflexivity|]. cbn. intros ->. reflexivity. Qed.

Lemma dec_len n : exists k, length (dec n) = S k.
Proof.
  unfold dec. rewrite map_length. pose proof (digits_ne 10 (N.size_nat n) n).
  destruct (digits 10 (S (N.size_nat n)) n); [congruence|]. exists (length l). reflexivity.
Qed.
Lemma hex_len n : exists k, length (hex n) = S k.
Proof.
  unfold hex. rewrite map_length. pose proof (digits_ne 16 (N.size_nat n) n).
  destruct (digits 16 (S (N.size_nat n)) n); [congruence|]. exists (length l). reflexivity.
Qed.

Lemma scan_dec big n rest : n < big -> stops undec rest ->
  scan_num undec 10 big 0 0 (dec n ++ rest) = Some (n, length (dec n), rest).
Proof.
  intros Hb Hs. unfold dec.
  assert (V : valb 10 0 (digits 10 (S (N.size_nat n)) n) = n) by (apply digits_val; [lia|apply size_lt]).
  rewrite scan_digits.
  - rewrite V, scan_stops by assumption. rewrite map_length. reflexivity.
  - lia.
  - intros d Hd. apply undec_digit. eapply digits_lt; [|eassumption]. lia.
  - rewrite V. assumption.
Qed.
Lemma scan_hex big n rest : n < big -> stops unhex rest ->
  scan_num unhex 16 big 0 0 (hex n ++ rest) = Some (n, length (hex n), rest).
Proof.
  intros Hb Hs. unfold hex.
  assert (V : valb 16 0 (digits 16 (S (N.size_nat n)) n) = n) by (apply digits_val; [lia|apply size_lt]).
  rewrite scan_digits.
  - rewrite V, scan_stops by assumption. rewrite map_length. reflexivity.
  - lia.
  - intros d Hd. apply unhex_digit. eapply digits_lt; [|eassumption]. lia.
  - rewrite V. assumption.
Qed.

Lemma dtoi_dec n rest : n < 0xffffff -> stops undec rest -> dtoi (dec n ++ rest) = Some (n, length (dec n), rest).
Proof.
  intros H1 H2. unfold dtoi. rewrite scan_dec by assumption. destruct (dec_len n) as [k ->]. reflexivity.
Qed.
Lemma xtoi_hex n rest : n < 0xffffff -> stops unhex rest -> xtoi (hex n ++ rest) = Some (n, length (hex n), rest).
Proof.
  intros H1 H2. unfold xtoi. rewrite scan_hex by assumption. destruct (hex_len n) as [k ->]. reflexivity.
Qed.
Lemma ParseUint32_dec n : n < 2 ^ 32 -> ParseUint32 (dec n) = Some n.
Proof.
  intros H. unfold ParseUint32. rewrite <- (app_nil_r (dec n)) at 1. rewrite scan_dec by (assumption || exact I).
  destruct (dec_len n) as [k ->]. reflexivity.
Qed.

Lemma digit_zero d : d < 16 -> digit d = x30 -> d = 0.
Proof.
  intros H E. pose proof (unhex_digit d H) as U. rewrite E in U. vm_compute in U. congruence.
Qed.

Lemma dec_head n : (1 < length (dec n))%nat -> byte_eqb (hd x00 (dec n)) x30 = false.
Proof.
  intros HL. unfold dec in *. destruct (digits 10 (S (N.size_nat n)) n) as [|d l] eqn:E; [cbn in HL; lia|].
  cbn [map hd]. destruct (byte_eqb_spec (digit d) x30) as [Z|]; [|reflexivity]. exfalso.
  assert (D : d < 10) by (eapply (digits_lt 10); [lia|rewrite E; left; reflexivity]).
  apply digit_zero in Z; [|lia].
  refine (digits_head 10 _ _ n d l E _ (size_lt n) _ Z); try lia. intros ->. cbn in HL. lia.
Qed.

(** ** IPv4 *)
Definition is_dec (c : byte) : bool := match undec c with Some _ => true | None => false end.
Lemma dec_digits n : Forall (fun c => exists d, d < 10 /\ c = digit d) (dec n).
Proof.
  unfold dec. rewrite Forall_map. rewrite Forall_forall. intros d Hd.
  exists d. split; [eapply digits_lt; [|eassumption]; lia|reflexivity].
Qed.
Lemma hex_digits n : Forall (fun c => exists d, d < 16 /\ c = digit d) (hex n).
Proof.
  unfold hex. rewrite Forall_map. rewrite Forall_forall. intros d Hd.
  exists d. split; [eapply digits_lt; [|eassumption]; lia|reflexivity].
Qed.

Lemma dec_ne n : dec n <> [].
Proof. destruct (dec_len n) as [k H]. destruct (dec n); [discriminate H|discriminate]. Qed.
Lemma hex_ne n : hex n <> [].
Proof. destruct (hex_len n) as [k H]. destruct (hex n); [discriminate H|discriminate]. Qed.

Lemma parse4_first k v rest bs :
  v < 256 -> parse4 k false rest = Some bs -> stops undec rest ->
  parse4 (S k) true (dec v ++ rest) = Some (n2b v :: bs).
Proof.
  intros Hv HP HS. cbn [parse4].
  pose proof (dtoi_dec v rest ltac:(lia) HS) as HD.
  assert (HH : (1 < length (dec v))%nat -> byte_eqb (hd x00 (dec v ++ rest)) x30 = false).
  { intros HL. rewrite <- (dec_head v HL). destruct (dec v); [cbn in HL; lia|reflexivity]. }
  destruct (dec v ++ rest) as [|c r] eqn:E.
  { apply app_eq_nil in E. destruct E as [E _]. destruct (dec_ne v E). }
  cbn [negb andb]. rewrite HD. destruct (N.ltb_spec 255 v); [lia|].
  destruct (Nat.ltb_spec 1 (length (dec v))); cbn [andb].
  - rewrite HH by assumption. rewrite HP. reflexivity.
  - rewrite HP. reflexivity.
Qed.
Lemma parse4_next k v rest bs :
  v < 256 -> parse4 k false rest = Some bs -> stops undec rest ->
  parse4 (S k) false (x2e :: dec v ++ rest) = Some (n2b v :: bs).
Proof.
  intros Hv HP HS. cbn [parse4]. change (byte_eqb x2e x2e) with true. cbn [negb andb].
  rewrite dtoi_dec by (lia || assumption). destruct (N.ltb_spec 255 v); [lia|].
  destruct (Nat.ltb_spec 1 (length (dec v))) as [HL|]; cbn [andb].
  - replace (hd x00 (dec v ++ rest)) with (hd x00 (dec v)) by (destruct (dec v); [cbn in HL; lia|reflexivity]).
    rewrite dec_head by assumption. rewrite HP. reflexivity.
  - rewrite HP. reflexivity.
Qed.

Lemma parseIPv4_dotted a b c d : parseIPv4 (dotted [a; b; c; d]) = Some (IPv4 a b c d).
Proof.
  unfold parseIPv4, dotted. cbn [map join].
  rewrite (parse4_first 3 (b2n a) _ [b; c; d]).
  - rewrite n2b_b2n. reflexivity.
  - apply b2n_lt.
  - rewrite (parse4_next 2 (b2n b) _ [c; d]); [rewrite n2b_b2n; reflexivity|apply b2n_lt| |reflexivity].
    rewrite (parse4_next 1 (b2n c) _ [d]); [rewrite n2b_b2n; reflexivity|apply b2n_lt| |reflexivity].
    rewrite <- (app_nil_r (dec (b2n d))).
    rewrite (parse4_next 0 (b2n d) [] []); [rewrite n2b_b2n; reflexivity|apply b2n_lt|reflexivity|exact I].
  - reflexivity.
Qed.

(** Without a dot nothing is an IPv4 address. *)
Lemma scan_suffix und base big s : forall acc cnt n c rest,
  scan_num und base big acc cnt s = Some (n, c, rest) -> exists p, s = p ++ rest.
Proof.
  induction s as [|x s IH]; intros acc cnt n c rest H; cbn [scan_num] in H.
  - injection H as <- <- <-. exists []. reflexivity.
  - destruct (und x).
    + destruct (big <=? acc * base + n0); [discriminate H|]. apply IH in H. destruct H as [p ->]. exists (x :: p). reflexivity.
    + injection H as <- <- <-. exists []. reflexivity.
Qed.
Lemma parseIPv4_nodot s : no_byte x2e s -> parseIPv4 s = None.
Proof.
  intros H. unfold parseIPv4. cbn [parse4]. destruct s as [|c r] eqn:E; [reflexivity|]. rewrite <- E in *. clear E.
  cbn [negb andb]. destruct (dtoi s) as [[[v cnt] rest]|] eqn:D; [|reflexivity].
  unfold dtoi, some_digits in D. destruct (scan_num undec 10 16777215 0 0 s) as [[[v2 cnt2] rest2]|] eqn:S; [|discriminate D].
  apply scan_suffix in S. destruct S as [p ->].
  assert (rest = rest2) as -> by (destruct cnt2; congruence).
  destruct (255 <? v); [reflexivity|]. destruct (_ && _); [reflexivity|].
  destruct rest2 as [|x rest2]; [reflexivity|].
  destruct (byte_eqb_spec x x2e) as [->|]; [|reflexivity].
  exfalso. apply H. apply in_or_app. right. left. reflexivity.
Qed.

(** ** IPv6 *)
Lemma colon_stops r : stops unhex (x3a :: r). Proof. reflexivity. Qed.

Lemma hex_colon n : no_byte x3a (hex n) /\ no_byte x2e (hex n) /\ no_byte x2f (hex n).
Proof.
  pose proof (hex_digits n) as F. rewrite Forall_forall in F.
  assert (G : forall c, In c (hex n) -> unhex c <> None).
  { intros c Hc. destruct (F c Hc) as [d [Hd ->]]. rewrite unhex_digit by assumption. discriminate. }
  repeat split; intros Hin; apply G in Hin; apply Hin; reflexivity.
Qed.

Lemma join_cons sep x (l : list bytes) : l <> [] -> join sep (x :: l) = x ++ sep :: join sep l.
Proof. destruct l; [congruence|reflexivity]. Qed.

Lemma hexgroups_head w ws : exists c r, hexgroups (w :: ws) = c :: r /\ byte_eqb c x3a = false.
Proof.
  pose proof (hex_colon w) as [H _]. pose proof (hex_ne w).
  assert (exists c r, hex w = c :: r) as [c [r E]] by (destruct (hex w); [congruence|eauto]).
  exists c. unfold hexgroups. cbn [map]. destruct (map hex ws) as [|y l].
  - exists r. cbn [join]. split; [assumption|]. destruct (byte_eqb_spec c x3a) as [->|]; [|reflexivity].
    exfalso. apply H. rewrite E. left. reflexivity.
  - exists (r ++ x3a :: join x3a (y :: l)). rewrite join_cons by discriminate. rewrite E. split; [reflexivity|].
    destruct (byte_eqb_spec c x3a) as [->|]; [|reflexivity].
    exfalso. apply H. rewrite E. left. reflexivity.
Qed.

Lemma loop6_last ws : forall k acc ell, ws <> [] -> Forall (fun w => w < 65536) ws -> (length ws <= k)%nat ->
  loop6 k acc ell (hexgroups ws) = finish6 (acc ++ ws) ell [].
Proof.
  induction ws as [|w ws IH]; intros k acc ell HN HF HK; [congruence|].
  destruct k as [|k]; [cbn in HK; lia|]. inversion HF as [|? ? Hw HF']; subst.
  cbn [loop6]. destruct ws as [|w2 ws].
  - unfold hexgroups. cbn [map join]. rewrite <- (app_nil_r (hex w)). rewrite xtoi_hex by (lia || exact I).
    destruct (N.ltb_spec 65535 w); [lia|]. reflexivity.
  - unfold hexgroups. cbn [map]. rewrite join_cons by discriminate. rewrite xtoi_hex by (lia || apply colon_stops).
    destruct (N.ltb_spec 65535 w); [lia|].
    change (byte_eqb x3a x2e) with false. change (byte_eqb x3a x3a) with true. cbn [negb].
    change (join x3a (hex w2 :: map hex ws)) with (hexgroups (w2 :: ws)).
    destruct (hexgroups_head w2 ws) as [c [r [E Hc]]]. rewrite E at 1. rewrite Hc.
    rewrite IH by (discriminate || assumption || (cbn in HK |- *; lia)). rewrite <- app_assoc. reflexivity.
Qed.

Lemma loop6_ell ws rest : forall k acc, ws <> [] -> Forall (fun w => w < 65536) ws -> (length ws <= k)%nat ->
  loop6 k acc None (hexgroups ws ++ x3a :: x3a :: rest) =
  match rest with
  | [] => finish6 (acc ++ ws) (Some (length acc + length ws)%nat) []
  | _ => loop6 (k - length ws) (acc ++ ws) (Some (length acc + length ws)%nat) rest
  end.
Proof.
  induction ws as [|w ws IH]; intros k acc HN HF HK; [congruence|].
  destruct k as [|k]; [cbn in HK; lia|]. inversion HF as [|? ? Hw HF']; subst.
  cbn [loop6]. destruct ws as [|w2 ws].
  - unfold hexgroups. cbn [map join]. rewrite xtoi_hex by (lia || apply colon_stops).
    destruct (N.ltb_spec 65535 w); [lia|].
    change (byte_eqb x3a x2e) with false. change (byte_eqb x3a x3a) with true. cbn [negb length].
    rewrite Nat.add_1_r, Nat.sub_succ, Nat.sub_0_r. reflexivity.
  - unfold hexgroups. cbn [map]. rewrite join_cons by discriminate. rewrite <- app_assoc. cbn [app].
    rewrite xtoi_hex by (lia || apply colon_stops).
    destruct (N.ltb_spec 65535 w); [lia|].
    change (byte_eqb x3a x2e) with false. change (byte_eqb x3a x3a) with true. cbn [negb].
    change (join x3a (hex w2 :: map hex ws)) with (hexgroups (w2 :: ws)).
    destruct (hexgroups_head w2 ws) as [c [r [E Hc]]].
    assert (E2 : hexgroups (w2 :: ws) ++ x3a :: x3a :: rest = c :: (r ++ x3a :: x3a :: rest)) by (rewrite E; reflexivity).
    rewrite E2 at 1. rewrite Hc.
    rewrite IH by (discriminate || assumption || (cbn in HK |- *; lia)).
    rewrite <- app_assoc. cbn [app]. rewrite app_length. cbn [length].
    replace (length acc + 1 + S (length ws))%nat with (length acc + S (S (length ws)))%nat by lia. reflexivity.
Qed.

Lemma zeros_prefix ws : firstn (zeros ws) ws = repeat 0 (zeros ws) /\ (zeros ws <= length ws)%nat.
Proof.
  induction ws as [|w ws [IH1 IH2]]; [split; [reflexivity|cbn; lia]|].
  cbn [zeros]. destruct (N.eqb_spec w 0) as [->|]; [|split; [reflexivity|cbn; lia]].
  cbn [firstn repeat length]. rewrite IH1. split; [reflexivity|lia].
Qed.

Lemma longest_run_spec fuel : forall i ws e0 e1,
  (e0 <= e1 <= length ws)%nat -> firstn (e1 - e0) (skipn e0 ws) = repeat 0 (e1 - e0) ->
  let '(f0, f1) := longest_run fuel i ws e0 e1 in
  (f0 <= f1 <= length ws)%nat /\ firstn (f1 - f0) (skipn f0 ws) = repeat 0 (f1 - f0).
Proof.
  induction fuel as [|k IH]; intros i ws e0 e1 HL HZ; [cbn; auto|].
  cbn [longest_run]. destruct (Nat.ltb_spec (e1 - e0) (zeros (skipn i ws))) as [H|H].
  - apply IH; destruct (zeros_prefix (skipn i ws)) as [Z1 Z2].
    + rewrite skipn_length in Z2. lia.
    + replace (i + zeros (skipn i ws) - i)%nat with (zeros (skipn i ws)) by lia. assumption.
  - apply IH; assumption.
Qed.

Lemma groups_ungroup ip : Nat.even (length ip) = true -> ungroup (groups ip) = ip.
Proof.
  revert ip. fix IH 1. intros [|a [|b r]] H; [reflexivity|discriminate H|].
  cbn [groups ungroup flat_map]. fold (ungroup (groups r)). rewrite IH by exact H.
  pose proof (b2n_lt a). pose proof (b2n_lt b).
  cbn [be_enc app]. f_equal; [|f_equal].
  - rewrite <- (n2b_b2n a) at 2. f_equal. change (2 ^ (8 * N.of_nat 1)) with 256. lia.
  - apply b2n_inj. rewrite b2n_n2b. change (2 ^ (8 * N.of_nat 0)) with 1. rewrite N.div_1_r. lia.
Qed.
Lemma groups_spec : forall ip, Forall (fun w => w < 65536) (groups ip).
Proof.
  fix IH 1. intros [|a [|b r]]; [constructor|constructor|]. cbn [groups]. constructor; [|apply IH].
  pose proof (b2n_lt a). pose proof (b2n_lt b). lia.
Qed.
Lemma groups_length ip : length ip = 16%nat -> length (groups ip) = 8%nat.
Proof. intros H. do 17 (destruct ip as [|? ip]; try discriminate H). reflexivity. Qed.

Lemma parseIPv6_nocolon s : (forall r, s <> x3a :: x3a :: r) -> parseIPv6 s = loop6 8 [] None s.
Proof.
  intros H. unfold parseIPv6. destruct s as [|c [|c2 r]]; try reflexivity.
  - destruct c; reflexivity.
  - destruct c; try reflexivity. destruct c2; try reflexivity. exfalso. eapply H. reflexivity.
Qed.

Lemma skipn_skipn_add {A} n m (l : list A) : skipn n (skipn m l) = skipn (m + n) l.
Proof. revert l. induction m as [|m IH]; intros l; [reflexivity|]. destruct l; [rewrite !skipn_nil; reflexivity|]. apply IH. Qed.

Lemma nth_ungroup_firstn ws e0 e1 : (e0 <= e1 <= length ws)%nat ->
  firstn (e1 - e0) (skipn e0 ws) = repeat 0 (e1 - e0) ->
  firstn e0 ws ++ repeat 0 (e1 - e0) ++ skipn e1 ws = ws.
Proof.
  intros H Z. rewrite <- Z. rewrite <- (firstn_skipn e0 ws) at 4. f_equal.
  rewrite <- (firstn_skipn (e1 - e0) (skipn e0 ws)) at 2. f_equal. rewrite skipn_skipn_add. f_equal. lia.
Qed.

Lemma parseIPv6_string6 ip : length ip = 16%nat -> parseIPv6 (string6 ip) = Some ip.
Proof.
  intros HL. unfold string6.
  pose proof (groups_spec ip) as HF. pose proof (groups_length ip HL) as HG.
  assert (HU : ungroup (groups ip) = ip) by (apply groups_ungroup; rewrite HL; reflexivity).
  set (ws := groups ip) in *. clearbody ws.
  pose proof (longest_run_spec 8 0 ws 0 0) as R. destruct (longest_run 8 0 ws 0 0) as [e0 e1].
  destruct R as [R1 R2]; [lia|reflexivity|].
  destruct (Nat.leb_spec (e1 - e0) 1) as [H|H].
  - rewrite parseIPv6_nocolon.
    + rewrite loop6_last; [|intros ->; discriminate HG|assumption|lia].
      cbn [app finish6]. rewrite HG. cbn [Nat.ltb Nat.leb]. rewrite HU. reflexivity.
    + destruct ws as [|w ws]; [discriminate HG|]. destruct (hexgroups_head w ws) as [c [r [E Hc]]].
      rewrite E. intros r2 Q. injection Q as -> _. discriminate Hc.
  - pose proof (nth_ungroup_firstn ws e0 e1 R1 R2) as HW.
    assert (HF1 : Forall (fun w => w < 65536) (firstn e0 ws)) by (rewrite <- (firstn_skipn e0 ws) in HF; apply Forall_app in HF; tauto).
    assert (HF2 : Forall (fun w => w < 65536) (skipn e1 ws)) by (rewrite <- (firstn_skipn e1 ws) in HF; apply Forall_app in HF; tauto).
    assert (L1 : length (firstn e0 ws) = e0) by (rewrite firstn_length; lia).
    assert (L2 : length (skipn e1 ws) = (8 - e1)%nat) by (rewrite skipn_length; lia).
    assert (FIN : finish6 (firstn e0 ws ++ skipn e1 ws) (Some e0) [] = Some ip).
    { unfold finish6. rewrite app_length, L1, L2. destruct (Nat.ltb_spec (e0 + (8 - e1)) 8); [|lia].
      replace (8 - (e0 + (8 - e1)))%nat with (e1 - e0)%nat by lia.
      rewrite firstn_app, L1, Nat.sub_diag, firstn_all2 by lia. cbn [firstn]. rewrite app_nil_r.
      rewrite skipn_app, L1, Nat.sub_diag, skipn_all2 by lia. cbn [skipn app].
      rewrite HW, HU. reflexivity. }
    destruct (firstn e0 ws) as [|w l] eqn:EF.
    + assert (e0 = 0)%nat as -> by (cbn in L1; lia).
      change (hexgroups [] ++ [x3a; x3a] ++ hexgroups (skipn e1 ws)) with (x3a :: x3a :: hexgroups (skipn e1 ws)).
      unfold parseIPv6. destruct (skipn e1 ws) as [|w2 l2] eqn:ES.
      * cbn [hexgroups map join]. cbn [length] in L2. rewrite <- FIN. cbn [app finish6 length Nat.ltb Nat.leb Nat.sub firstn skipn]. reflexivity.
      * destruct (hexgroups_head w2 l2) as [c [r [E Hc]]]. rewrite E. rewrite <- E.
        rewrite loop6_last; [|discriminate|assumption|lia]. exact FIN.
    + rewrite parseIPv6_nocolon.
      * cbn [app].
        rewrite loop6_ell; [|discriminate|assumption|lia]. rewrite L1. cbn [length Nat.add].
        destruct (skipn e1 ws) as [|w2 l2] eqn:ES.
        -- cbn [hexgroups map join]. rewrite app_nil_r in FIN. exact FIN.
        -- destruct (hexgroups_head w2 l2) as [c [r [E Hc]]]. rewrite E. rewrite <- E.
           rewrite loop6_last; [|discriminate|assumption|lia]. exact FIN.
      * destruct (hexgroups_head w l) as [c [r [E Hc]]].
        rewrite E. intros r2 Q. injection Q as -> _. discriminate Hc.
Qed.

(** ** Dispatch *)
Lemma dec_chars n : forall c, In c (dec n) -> undec c <> None.
Proof.
  pose proof (dec_digits n) as F. rewrite Forall_forall in F. intros c Hc.
  destruct (F c Hc) as [d [Hd ->]]. rewrite undec_digit by assumption. discriminate.
Qed.
Lemma hex_chars n : forall c, In c (hex n) -> unhex c <> None.
Proof.
  pose proof (hex_digits n) as F. rewrite Forall_forall in F. intros c Hc.
  destruct (F c Hc) as [d [Hd ->]]. rewrite unhex_digit by assumption. discriminate.
Qed.

Lemma In_join sep l (c : byte) : In c (join sep l) -> c = sep \/ exists x, In x l /\ In c x.
Proof.
  induction l as [|x l IH]; [intros []|]. destruct l as [|y l].
  - cbn. intros H. right. exists x. auto.
  - rewrite join_cons by discriminate. intros H. apply in_app_or in H. destruct H as [H|[H|H]].
    + right. exists x. split; [left; reflexivity|assumption].
    + auto.
    + apply IH in H. destruct H as [H|[z [H1 H2]]]; [auto|]. right. exists z. split; [right; assumption|assumption].
Qed.

Lemma dotted_chars ip c : In c (dotted ip) -> c = x2e \/ undec c <> None.
Proof.
  intros H. apply In_join in H. destruct H as [->|[x [H1 H2]]]; [auto|].
  right. apply in_map_iff in H1. destruct H1 as [b [<- _]]. eapply dec_chars. eassumption.
Qed.
Lemma hexgroups_chars ws c : In c (hexgroups ws) -> c = x3a \/ unhex c <> None.
Proof.
  intros H. apply In_join in H. destruct H as [->|[x [H1 H2]]]; [auto|].
  right. apply in_map_iff in H1. destruct H1 as [b [<- _]]. eapply hex_chars. eassumption.
Qed.
Lemma string6_chars ip c : In c (string6 ip) -> c = x3a \/ unhex c <> None.
Proof.
  unfold string6. destruct (longest_run 8 0 (groups ip) 0 0) as [e0 e1].
  destruct (e1 - e0 <=? 1)%nat; [apply hexgroups_chars|].
  intros H. apply in_app_or in H. destruct H as [H|H]; [eapply hexgroups_chars; eassumption|].
  destruct H as [<-|[<-|H]]; [auto|auto|]. eapply hexgroups_chars; eassumption.
Qed.

Lemma first_special_pre p c r : (forall x, In x p -> byte_eqb x x2e || byte_eqb x x3a = false) ->
  byte_eqb c x2e || byte_eqb c x3a = true -> first_special (p ++ c :: r) = Some c.
Proof.
  induction p as [|y p IH]; intros HP HC; cbn [app first_special]; [rewrite HC; reflexivity|].
  rewrite (HP y) by (left; reflexivity). apply IH; [intros x Hx; apply HP; right; assumption|assumption].
Qed.

Lemma unhex_nosep c : unhex c <> None -> byte_eqb c x2e || byte_eqb c x3a = false.
Proof.
  intros H. destruct (byte_eqb_spec c x2e) as [->|]; [exfalso; apply H; reflexivity|].
  destruct (byte_eqb_spec c x3a) as [->|]; [exfalso; apply H; reflexivity|]. reflexivity.
Qed.
Lemma undec_nosep c : undec c <> None -> byte_eqb c x2e || byte_eqb c x3a = false.
Proof.
  intros H. destruct (byte_eqb_spec c x2e) as [->|]; [exfalso; apply H; reflexivity|].
  destruct (byte_eqb_spec c x3a) as [->|]; [exfalso; apply H; reflexivity|]. reflexivity.
Qed.

Lemma ParseIP_dotted ip : length ip = 4%nat -> ParseIP (dotted ip) = Some (v4prefix ++ ip).
Proof.
  intros H. do 5 (destruct ip as [|? ip]; try discriminate H).
  unfold ParseIP. assert (first_special (dotted [b; b0; b1; b2]) = Some x2e) as ->.
  { unfold dotted. cbn [map join]. apply first_special_pre; [|reflexivity].
    intros x Hx. apply undec_nosep. eapply dec_chars. eassumption. }
  change (byte_eqb x2e x2e) with true. cbv iota. apply parseIPv4_dotted.
Qed.

Lemma string6_special ip : length ip = 16%nat -> first_special (string6 ip) = Some x3a.
Proof.
  intros HL. pose proof (groups_length ip HL) as HG. unfold string6. destruct (longest_run 8 0 (groups ip) 0 0) as [e0 e1].
  destruct (groups ip) as [|w ws]; [discriminate HG|].
  assert (J : forall l r, l <> [] -> first_special (hexgroups l ++ x3a :: r) = Some x3a).
  { intros l r Hl. destruct l as [|y l]; [congruence|]. unfold hexgroups. cbn [map].
    assert (P : forall x, In x (hex y) -> byte_eqb x x2e || byte_eqb x x3a = false)
      by (intros x Hx; apply unhex_nosep; eapply hex_chars; eassumption).
    destruct (map hex l) as [|z l']; [|rewrite join_cons, <- app_assoc by discriminate; cbn [app]];
    (apply first_special_pre; [exact P|reflexivity]). }
  destruct (e1 - e0 <=? 1)%nat.
  - unfold hexgroups. cbn [map]. destruct (map hex ws) as [|z l'] eqn:E.
    + destruct ws; [discriminate HG|discriminate E].
    + rewrite join_cons by discriminate. apply first_special_pre; [|reflexivity].
      intros x Hx. apply unhex_nosep. eapply hex_chars. eassumption.
  - cbn [app]. destruct (firstn e0 (w :: ws)) as [|y l]; [reflexivity|]. apply J. discriminate.
Qed.

(** Printing and parsing an address gives its 16-byte form. *)
Lemma ParseIP_string ip : valid_ip ip -> ParseIP (ip_string ip) = Some (to16 ip).
Proof.
  intros V. unfold ip_string. destruct (to4_spec ip V) as [_ T].
  destruct (to4 ip) as [|t0 t] eqn:E; cbn [is_nil negb].
  - assert (L : length ip = 16%nat).
    { destruct V as [V|V]; [|assumption]. unfold to4 in E. rewrite V in E. cbn [Nat.eqb] in E. subst ip. discriminate V. }
    rewrite L. cbn [Nat.eqb]. unfold ParseIP. rewrite string6_special by assumption.
    change (byte_eqb x3a x2e) with false. cbv iota. rewrite parseIPv6_string6, to16_id by assumption. reflexivity.
  - destruct (T ltac:(discriminate)) as [L A]. rewrite ParseIP_dotted by assumption. f_equal.
    change (v4prefix ++ t0 :: t) with (v4prefix ++ (t0 :: t)).
    assert (E2 : v4prefix ++ (t0 :: t) = to16 (t0 :: t)) by (unfold to16; rewrite L; reflexivity).
    rewrite E2. apply to16_eq; [left; assumption|assumption|assumption].
Qed.

(** ** Networks *)
Lemma cut_at_app sep a r : no_byte sep a -> cut_at sep (a ++ sep :: r) = Some (a, r).
Proof.
  induction a as [|c a IH]; intros H; cbn [app cut_at].
  - rewrite byte_eqb_refl. reflexivity.
  - destruct (byte_eqb_spec c sep) as [->|]; [exfalso; apply H; left; reflexivity|].
    rewrite IH; [reflexivity|]. intros Hin. apply H. right. assumption.
Qed.

Lemma ip_string_chars ip c : valid_ip ip -> In c (ip_string ip) -> c = x2e \/ c = x3a \/ unhex c <> None.
Proof.
  intros V. unfold ip_string. destruct (is_nil (to4 ip)) eqn:E; cbn [negb].
  - assert (L : length ip = 16%nat).
    { destruct V as [V|V]; [|assumption]. unfold to4 in E. rewrite V in E. cbn [Nat.eqb] in E. destruct ip; [discriminate V|discriminate E]. }
    rewrite L. cbn [Nat.eqb]. intros H. apply string6_chars in H. tauto.
  - intros H. apply dotted_chars in H. destruct H as [H|H]; [auto|]. right. right.
    intros Q. apply H. revert Q. unfold unhex, undec. destruct ((48 <=? b2n c) && (b2n c <=? 57)); [discriminate|reflexivity].
Qed.

Definition net_char (c : byte) : Prop := c = x2e \/ c = x3a \/ c = x2f \/ unhex c <> None.

Lemma undec_unhex c : undec c <> None -> unhex c <> None.
Proof. intros H Q. apply H. revert Q. unfold unhex, undec. destruct ((48 <=? b2n c) && (b2n c <=? 57)); [discriminate|reflexivity]. Qed.

Lemma mask_bytes_skip k j m : skipn k (mask_bytes (k + j) (8 * k + m)) = mask_bytes j m.
Proof.
  induction k as [|k IH]; [reflexivity|]. cbn [Nat.add mask_bytes].
  destruct (Nat.leb_spec 8 (8 * S k + m)); [|lia]. cbn [skipn].
  replace (8 * S k + m - 8)%nat with (8 * k + m)%nat by lia. exact IH.
Qed.

(** The spelling used for a network: IPv4 networks in four bytes. *)
Lemma net_short n b : net_is n b -> aligned b ->
  exists ip m, valid_ip ip /\ to4 (nIP n) = to4 ip /\ addr ip = base b /\
    (m <= if is_nil (to4 ip) then 128 else 32)%nat /\
    N.of_nat m + logsz b = (if is_nil (to4 ip) then 128 else 32) /\
    net_string n = ip_string ip ++ x2f :: dec (N.of_nat m) /\
    (ip = if is_nil (to4 ip) then nIP n else to4 (nIP n)).
Proof.
  intros [V ML HZ HM HB] AL. destruct (to4_spec (nIP n) V) as [T1 T2].
  pose proof (mask_unique (nMask n) (length (nIP n)) (logsz b) ML HZ HM) as MU.
  unfold net_string. destruct (to4 (nIP n)) as [|t0 t] eqn:E; cbn [is_nil].
  - assert (L : length (nIP n) = 16%nat).
    { destruct V as [V|V]; [|assumption]. unfold to4 in E. rewrite V in E. cbn [Nat.eqb] in E. rewrite E in V. discriminate V. }
    rewrite L in *. cbn [Nat.eqb andb orb]. rewrite Bool.andb_false_r, ML. cbn [Nat.eqb negb orb].
    exists (nIP n), (128 - N.to_nat (logsz b))%nat. rewrite E. cbn [is_nil].
    split; [right; assumption|]. split; [reflexivity|]. split; [symmetry; assumption|].
    split; [lia|]. split; [lia|]. split; [|reflexivity].
    rewrite MU. rewrite simpleMaskLength_mask_bytes by lia. reflexivity.
  - destruct (T2 ltac:(discriminate)) as [L A]. rewrite L. cbn [Nat.eqb].
    assert (HL : logsz b <= 32).
    { destruct V as [V|V]; rewrite V in *; [lia|].
      destruct (N.le_gt_cases (logsz b) 32) as [|G]; [assumption|exfalso].
      destruct T1 as [T1 _]. specialize (T1 ltac:(discriminate)). unfold aligned in AL.
      assert (D : 2 ^ logsz b = 2 ^ (logsz b - 33) * 2 ^ 33) by (rewrite <- N.pow_add_r; f_equal; lia).
      assert (M33 : base b mod 2 ^ 33 = 0).
      { apply N.mod_divide in AL; [|apply N.pow_nonzero; discriminate]. apply N.mod_divide; [discriminate|].
        eapply N.divide_trans; [|exact AL]. exists (2 ^ (logsz b - 33)). assumption. }
      rewrite HB in M33. clear - T1 M33. lia. }
    set (mask := if (length (nMask n) =? 16)%nat && true then skipn 12 (nMask n) else nMask n).
    assert (EM : mask = mask_bytes 4 (32 - N.to_nat (logsz b))).
    { unfold mask. rewrite ML. destruct V as [V|V]; rewrite V in *; cbn [Nat.eqb andb].
      - rewrite MU. f_equal.
      - rewrite MU. replace (8 * 16 - N.to_nat (logsz b))%nat with (96 + (32 - N.to_nat (logsz b)))%nat by lia.
        exact (mask_bytes_skip 12 4 (32 - N.to_nat (logsz b))). }
    rewrite EM, mask_bytes_length. cbn [Nat.eqb negb orb].
    exists (t0 :: t), (32 - N.to_nat (logsz b))%nat.
    assert (T4 : to4 (t0 :: t) = t0 :: t) by (unfold to4; rewrite L; reflexivity). rewrite T4. cbn [is_nil].
    split; [left; assumption|]. split; [reflexivity|]. split; [congruence|].
    split; [lia|]. split; [lia|]. split; [|reflexivity].
    rewrite simpleMaskLength_mask_bytes by lia. reflexivity.
Qed.

Lemma ParseCIDR_string n b : net_is n b -> aligned b ->
  exists n', ParseCIDR (net_string n) = Some n' /\ net_is n' b /\
    length (nIP n') = (if is_nil (to4 (nIP n)) then 16 else 4)%nat.
Proof.
  intros HN AL. destruct (net_short n b HN AL) as [ip [m [V [T [A [HM [HK [ES EI]]]]]]]].
  assert (NOS : no_byte x2f (ip_string ip)).
  { intros H. apply ip_string_chars in H; [|assumption]. destruct H as [H|[H|H]]; [discriminate H|discriminate H|]. apply H. reflexivity. }
  unfold ParseCIDR. rewrite ES, cut_at_app by assumption.
  pose proof (dtoi_dec (N.of_nat m) [] ltac:(destruct (is_nil (to4 ip)); lia) I) as DM. rewrite app_nil_r in DM.
  destruct (IpNet_spec ip m V HM) as [k [K1 K2]].
  assert (k = logsz b) as -> by lia. rewrite A in K2.
  replace (base b / 2 ^ logsz b * 2 ^ logsz b) with (base b) in K2.
  2:{ unfold aligned in AL. pose proof (N.div_mod (base b) (2 ^ logsz b)) as D.
      rewrite N.mul_comm. rewrite AL, N.add_0_r in D. apply D. apply N.pow_nonzero. discriminate. }
  replace (mkBlock (base b) (logsz b)) with b in K2 by (destruct b; reflexivity).
  destruct (to4_spec ip V) as [T1 T2]. rewrite T.
  destruct (to4 ip) as [|t0 t] eqn:E; cbn [is_nil] in *.
  - assert (L : length ip = 16%nat).
    { destruct V as [V|V]; [|assumption]. unfold to4 in E. rewrite V in E. cbn [Nat.eqb] in E. subst ip. discriminate V. }
    assert (PS : ip_string ip = string6 ip) by (unfold ip_string; rewrite E, L; reflexivity).
    rewrite PS. rewrite parseIPv4_nodot.
    2:{ intros H. apply string6_chars in H. destruct H as [H|H]; [discriminate H|]. apply H. reflexivity. }
    rewrite parseIPv6_string6, DM by assumption.
    destruct (N.ltb_spec (8 * 16) (N.of_nat m)); [lia|].
    exists (IpNet ip (Z.of_nat m)). split; [|split; [assumption|]].
    + unfold IpNet. rewrite E. cbn [is_nil]. rewrite to16_id, L by assumption. f_equal. rewrite nat_N_Z. reflexivity.
    + pose proof (ni_mask_len _ _ K2) as Q. rewrite <- Q. unfold IpNet. cbn [nMask]. rewrite E. cbn [is_nil].
      rewrite to16_id, L by assumption. rewrite CIDRMask_ok by lia. apply mask_bytes_length.
  - destruct (T2 ltac:(discriminate)) as [L A4].
    assert (PS : ip_string ip = dotted (t0 :: t)) by (unfold ip_string; rewrite E; reflexivity).
    rewrite PS.
    assert (P4 : parseIPv4 (dotted (t0 :: t)) = Some (to16 ip)).
    { assert (E2 : to16 ip = v4prefix ++ (t0 :: t)).
      { transitivity (to16 (t0 :: t)); [apply to16_eq; [assumption|left; assumption|congruence]|]. unfold to16. rewrite L. reflexivity. }
      rewrite E2. clear - L. do 3 (destruct t as [|? t]; try discriminate L). destruct t; [|discriminate L]. apply parseIPv4_dotted. }
    rewrite P4, DM. destruct (N.ltb_spec (8 * 4) (N.of_nat m)); [lia|].
    exists (IpNet ip (Z.of_nat m)). split; [|split; [assumption|]].
    + unfold IpNet. rewrite E. cbn [is_nil]. rewrite L. f_equal.
      replace (Z.of_N (8 * 4)) with (Z.of_nat 4 * 8)%Z by reflexivity. rewrite N_nat_Z || idtac.
      assert (IM : forall q, length q = 4%nat -> ip_mask (to16 ip) q = ip_mask ip q).
      { intros q Lq. unfold ip_mask. rewrite Lq. cbn [Nat.eqb andb]. rewrite Lq. cbn [Nat.eqb andb].
        rewrite (to16_length ip V). cbn [Nat.eqb andb].
        assert (F : firstn 12 (to16 ip) = v4prefix /\ skipn 12 (to16 ip) = t0 :: t).
        { assert (E2 : to16 ip = v4prefix ++ (t0 :: t)).
          { transitivity (to16 (t0 :: t)); [apply to16_eq; [assumption|left; assumption|congruence]|]. unfold to16. rewrite L. reflexivity. }
          rewrite E2. split; reflexivity. }
        destruct F as [F1 F2]. rewrite F1, F2, bytes_eqb_refl. cbv iota.
        unfold to4 in E. destruct V as [V|V]; rewrite V in *; cbn [Nat.eqb andb] in *.
        - rewrite E. reflexivity.
        - destruct (bytes_eqb (firstn 12 ip) v4prefix); [|discriminate E]. rewrite E. reflexivity. }
      assert (Z.of_N (N.of_nat m) = Z.of_nat m) as -> by lia.
      rewrite IM; [reflexivity|]. rewrite CIDRMask_ok by lia. apply mask_bytes_length.
    + pose proof (ni_mask_len _ _ K2) as Q. rewrite <- Q. unfold IpNet. cbn [nMask]. rewrite E. cbn [is_nil].
      rewrite L. rewrite CIDRMask_ok by lia. apply mask_bytes_length.
Qed.

Lemma net_string_chars n b : net_is n b -> aligned b -> forall c, In c (net_string n) -> net_char c.
Proof.
  intros HN AL c. destruct (net_short n b HN AL) as [ip [m [V [T [A [HM [HK [ES EI]]]]]]]].
  rewrite ES. intros H. apply in_app_or in H. unfold net_char. destruct H as [H|[H|H]].
  - apply ip_string_chars in H; tauto.
  - auto.
  - right. right. right. apply undec_unhex. eapply dec_chars. eassumption.
Qed.

(** ** Lengths *)
Lemma digits_length base k : 2 <= base -> forall fuel n, n < base ^ N.of_nat (S k) -> (length (digits base fuel n) <= S k)%nat.
Proof.
  intros B. induction k as [|k IH]; intros fuel n H.
  - destruct fuel as [|f]; [cbn; lia|]. cbn [digits]. change (N.of_nat 1) with 1 in H. rewrite N.pow_1_r in H.
    destruct (N.ltb_spec n base); [cbn; lia|lia].
  - destruct fuel as [|f]; [cbn; lia|]. cbn [digits]. destruct (N.ltb_spec n base); [cbn; lia|].
    rewrite app_length. cbn [length]. enough (length (digits base f (n / base)) <= S k)%nat by lia.
    apply IH. rewrite Nat2N.inj_succ, N.pow_succ_r' in H. apply N.div_lt_upper_bound; lia.
Qed.
Lemma dec_length_le n : n < 1000 -> (length (dec n) <= 3)%nat.
Proof. intros H. unfold dec. rewrite map_length. apply (digits_length 10 2); [lia|]. change (10 ^ N.of_nat 3) with 1000. assumption. Qed.
Lemma hex_length_le n : n < 65536 -> (length (hex n) <= 4)%nat.
Proof. intros H. unfold hex. rewrite map_length. apply (digits_length 16 3); [lia|]. change (16 ^ N.of_nat 4) with 65536. assumption. Qed.
Lemma join_length_le sep m l : Forall (fun x : bytes => (length x <= m)%nat) l -> (length (join sep l) <= length l * S m)%nat.
Proof.
  induction 1 as [|x l H F IH]; [cbn; lia|]. destruct l as [|y l]; [cbn; lia|].
  rewrite join_cons by discriminate. rewrite app_length. cbn [length] in *. lia.
Qed.
Lemma hexgroups_length ws : Forall (fun w => w < 65536) ws -> (length (hexgroups ws) <= length ws * 5)%nat.
Proof.
  intros H. unfold hexgroups. rewrite <- (map_length hex ws). apply join_length_le.
  rewrite Forall_map. eapply Forall_impl; [|exact H]. intros w Hw. apply hex_length_le. assumption.
Qed.
Lemma ip_string_length ip : valid_ip ip -> (length (ip_string ip) <= 40)%nat.
Proof.
  intros V. unfold ip_string. destruct (to4_spec ip V) as [_ T].
  destruct (to4 ip) as [|t0 t] eqn:E; cbn [is_nil negb].
  - assert (L : length ip = 16%nat).
    { destruct V as [V|V]; [|assumption]. unfold to4 in E. rewrite V in E. cbn [Nat.eqb] in E. subst ip. discriminate V. }
    rewrite L. cbn [Nat.eqb]. unfold string6. pose proof (groups_spec ip) as HF. pose proof (groups_length ip L) as HG.
    pose proof (longest_run_spec 8 0 (groups ip) 0 0) as R. destruct (longest_run 8 0 (groups ip) 0 0) as [e0 e1].
    destruct R as [R1 _]; [lia|reflexivity|].
    pose proof (hexgroups_length (groups ip) HF) as Q.
    destruct (Nat.leb_spec (e1 - e0) 1); [lia|].
    assert (HF1 : Forall (fun w => w < 65536) (firstn e0 (groups ip))) by (rewrite <- (firstn_skipn e0 (groups ip)) in HF; apply Forall_app in HF; tauto).
    assert (HF2 : Forall (fun w => w < 65536) (skipn e1 (groups ip))) by (rewrite <- (firstn_skipn e1 (groups ip)) in HF; apply Forall_app in HF; tauto).
    pose proof (hexgroups_length _ HF1) as Q1. pose proof (hexgroups_length _ HF2) as Q2.
    rewrite firstn_length in Q1. rewrite skipn_length in Q2. rewrite !app_length. cbn [length]. lia.
  - destruct (T ltac:(discriminate)) as [L _]. unfold dotted. etransitivity.
    + apply (join_length_le x2e 3). rewrite Forall_map. apply Forall_forall. intros b _. apply dec_length_le. pose proof (b2n_lt b). lia.
    + rewrite map_length, L. lia.
Qed.
Lemma net_string_length n b : net_is n b -> aligned b -> (length (net_string n) <= 44)%nat.
Proof.
  intros HN AL. destruct (net_short n b HN AL) as [ip [m [V [T [A [HM [HK [ES EI]]]]]]]].
  rewrite ES, app_length. cbn [length]. pose proof (ip_string_length ip V).
  assert (length (dec (N.of_nat m)) <= 3)%nat by (apply dec_length_le; destruct (is_nil (to4 ip)); lia). lia.
Qed.

(** C54: which JSON descriptions are accepted, and the value of their numbers. *)
From Verif Require Import Base NetIP NetText Spec Inf Ipdb SpecIpdb Json SpecForeign JsonProofs SpecJson.
From Verif Require Import PropsJson PropsJson2.
Open Scope N_scope.

(* ---------- specification ---------- *)
(** The number a text of decimal digits stands for, and that of one with an optional minus. *)
Inductive digits_value : bytes -> N -> Prop :=
| dv_one d : dec_digit d -> digits_value [d] (b2n d - 0x30)
| dv_more t n d : digits_value t n -> dec_digit d -> digits_value (t ++ [d]) (10 * n + (b2n d - 0x30)).
Inductive integer_value : bytes -> Z -> Prop :=
| iv_pos t n : digits_value t n -> integer_value t (Z.of_N n)
| iv_neg t n : digits_value t n -> integer_value (x2d :: t) (- Z.of_N n).
(** A JSON value fits a Go variable. *)
Inductive fits_int : json -> Prop :=
| fi_null : fits_int JNull
| fi_num t z : integer_value t z -> int64 z -> fits_int (JNum t).
Inductive fits_uint (big : N) : json -> Prop :=
| fu_null : fits_uint big JNull
| fu_num t n : digits_value t n -> n < big -> fits_uint big (JNum t).
Definition fits_text (j : json) : Prop := j = JNull \/ exists s, j = JStr s.
Definition fits_texts (j : json) : Prop := j = JNull \/ exists l, j = JArr l /\ Forall fits_text l.
Definition fits_map (j : json) : Prop := j = JNull \/ exists l, j = JObj l /\ Forall (fun kv => fits_int (snd kv)) l.
Record meta_member (kv : bytes * json) : Prop := {
  mm_build : same_name (str "build") (fst kv) -> fits_int (snd kv);
  mm_ver : same_name (str "ip_version") (fst kv) -> fits_uint (2 ^ 16) (snd kv);
  mm_lang : same_name (str "languages") (fst kv) -> fits_map (snd kv);
  mm_nodes : same_name (str "node_count") (fst kv) -> fits_int (snd kv);
  mm_size : same_name (str "total_size") (fst kv) -> fits_int (snd kv);
  mm_fields : same_name (str "fields") (fst kv) -> fits_texts (snd kv);
  mm_version : same_name (str "version") (fst kv) -> fits_text (snd kv);
  mm_extra : same_name (str "extra") (fst kv) -> fits_texts (snd kv) }.
Record version_member (kv : bytes * json) : Prop := {
  vm_type : same_name (str "IpType") (fst kv) -> fits_int (snd kv);
  vm_count : same_name (str "Count") (fst kv) -> fits_uint (2 ^ 32) (snd kv);
  vm_build : same_name (str "Build") (fst kv) -> fits_int (snd kv);
  vm_version : same_name (str "Version") (fst kv) -> fits_text (snd kv);
  vm_lang : same_name (str "Languages") (fst kv) -> fits_texts (snd kv);
  vm_extra : same_name (str "ExtraInfo") (fst kv) -> fits_texts (snd kv) }.

(* ---------- numbers ---------- *)
Definition dval (acc : N) (t : bytes) : N := fold_left (fun a d => a * 10 + (b2n d - 48)) t acc.
Lemma dval_ge t : forall acc, acc <= dval acc t.
Proof. unfold dval. induction t as [|d t IH]; intros acc; cbn [fold_left]; [lia|]. specialize (IH (acc * 10 + (b2n d - 48))). lia. Qed.
Lemma undec_spec c : match undec c with Some d => dec_digit c /\ d = b2n c - 48 | None => ~ dec_digit c end.
Proof. unfold undec, dec_digit. destruct (N.leb_spec 48 (b2n c)); cbn [andb]; [|lia]. destruct (N.leb_spec (b2n c) 57); [auto|lia]. Qed.
Lemma scan_num_iff big s : forall acc cnt n c, acc < big ->
  scan_num undec 10 big acc cnt s = Some (n, c, []) <-> Forall dec_digit s /\ n = dval acc s /\ n < big /\ c = (cnt + length s)%nat.
Proof.
  induction s as [|d s IH]; intros acc cnt n c L; cbn [scan_num dval fold_left length].
  - split; [intros E; assert (n = acc /\ c = cnt) as [-> ->] by (split; congruence); repeat split; [constructor|assumption|lia]|].
    intros (_ & -> & _ & ->). do 3 f_equal. lia.
  - pose proof (undec_spec d) as U. destruct (undec d) as [v|].
    + destruct U as [U ->]. destruct (N.leb_spec big (acc * 10 + (b2n d - 48))) as [G|G].
      * split; [discriminate|]. intros (_ & E & H & _). pose proof (dval_ge s (acc * 10 + (b2n d - 48))) as M. unfold dval in *. lia.
      * rewrite IH by assumption. unfold dval. split; intros (F & E & H & K); (split; [|split; [assumption|split; [assumption|lia]]]); [constructor; assumption|inversion F; assumption].
    + split; [discriminate|]. intros (F & _). inversion F; contradiction.
Qed.
Lemma digits_value_dval t n : digits_value t n <-> t <> [] /\ Forall dec_digit t /\ n = dval 0 t.
Proof.
  split.
  - induction 1 as [d D|t n d V (Nt & F & ->) D].
    + split; [discriminate|]. split; [constructor; [assumption|constructor]|reflexivity].
    + split; [destruct t; discriminate|]. split; [apply Forall_app; auto|]. unfold dval. rewrite fold_left_app. cbn [fold_left]. lia.
  - intros (Nt & F & ->). induction t as [|d t IH] using rev_ind; [congruence|]. apply Forall_app in F as [F Fd]. inversion Fd; subst.
    destruct t as [|x t]; [apply dv_one; assumption|].
    unfold dval. rewrite fold_left_app. cbn [fold_left]. rewrite N.mul_comm. apply dv_more; [|assumption]. apply IH; [discriminate|assumption].
Qed.
Lemma parse_uint_iff big t n : 0 < big -> parse_uint big t = Some n <-> digits_value t n /\ n < big.
Proof.
  intros B. rewrite digits_value_dval. unfold parse_uint.
  destruct (scan_num undec 10 big 0 0 t) as [[[m c] rest]|] eqn:E; cbn [some_digits].
  - destruct rest as [|b rest].
    + apply (scan_num_iff big t 0 0%nat m c B) in E as (F & -> & L & ->). destruct t as [|d t]; cbn [length Nat.add].
      * split; [discriminate|]. intros ((N0 & _) & _). congruence.
      * split; [intros Q; assert (n = dval 0 (d :: t)) as -> by congruence; repeat split; [discriminate|assumption|assumption]|].
        intros ((_ & _ & ->) & _). reflexivity.
    + assert (some_digits (Some (m, c, b :: rest)) = None \/ exists k, some_digits (Some (m, S k, b :: rest)) = Some (m, S k, b :: rest) /\ c = S k) as Q by (destruct c; [auto|right; eauto]).
      destruct c as [|c]; split; try discriminate; intros ((_ & F & ->) & L);
        pose proof (proj2 (scan_num_iff big t 0 0%nat (dval 0 t) (0 + length t)%nat B) (conj F (conj eq_refl (conj L eq_refl)))) as X; congruence.
  - split; [discriminate|]. intros ((_ & F & ->) & L).
    pose proof (proj2 (scan_num_iff big t 0 0%nat (dval 0 t) (0 + length t)%nat B) (conj F (conj eq_refl (conj L eq_refl)))) as X. congruence.
Qed.
Lemma digits_not_minus t n : digits_value (x2d :: t) n -> False.
Proof. rewrite digits_value_dval. intros (_ & F & _). inversion F as [|? ? D]; subst. unfold dec_digit in D. vm_compute in D. destruct D as [D _]. apply D. reflexivity. Qed.
Lemma parse_int_iff t z : parse_int t = Some z <-> integer_value t z /\ int64 z.
Proof.
  assert (P : forall u, match parse_uint (2 ^ 63) u with Some n => Some (Z.of_N n) | None => None end = Some z <-> exists n, digits_value u n /\ z = Z.of_N n /\ n < 2 ^ 63).
  { intros u. split.
    - destruct (parse_uint (2 ^ 63) u) as [n|] eqn:E; [|discriminate]. apply parse_uint_iff in E as [V L]; [|lia]. intros Q. exists n. split; [assumption|]. split; [congruence|assumption].
    - intros (n & V & -> & L). rewrite (proj2 (parse_uint_iff (2 ^ 63) u n ltac:(lia))) by auto. reflexivity. }
  assert (G : (forall r, t <> x2d :: r) -> parse_int t = match parse_uint (2 ^ 63) t with Some n => Some (Z.of_N n) | None => None end).
  { intros H. unfold parse_int. destruct t as [|b t]; [reflexivity|]. destruct b; try reflexivity. exfalso. apply (H t). reflexivity. }
  unfold int64. assert (D : (exists r, t = x2d :: r) \/ forall r, t <> x2d :: r).
  { destruct t as [|b t]; [right; discriminate|]. destruct (byte_eqb_spec b x2d) as [->|N]; [left; eauto|right; intros r Q; congruence]. }
  destruct D as [[r ->]|D].
  - unfold parse_int. destruct (parse_uint (2 ^ 63 + 1) r) as [n|] eqn:E.
    + apply parse_uint_iff in E as [V L]; [|lia]. split.
      * intros Q. assert (z = (- Z.of_N n)%Z) as -> by congruence. split; [apply iv_neg; assumption|lia].
      * intros [H Hz]. inversion H as [u m V' |u m V']; subst; [exfalso; eapply digits_not_minus; eassumption|].
        rewrite digits_value_dval in V, V'. destruct V as (_ & _ & ->), V' as (_ & _ & ->). reflexivity.
    + split; [discriminate|]. intros [H Hz]. inversion H as [u m V' |u m V']; subst; [exfalso; eapply digits_not_minus; eassumption|].
      rewrite (proj2 (parse_uint_iff (2 ^ 63 + 1) r m ltac:(lia))) in E by (split; [assumption|lia]). discriminate.
  - rewrite (G D), P. split.
    + intros (n & V & -> & L). split; [apply iv_pos; assumption|lia].
    + intros [H Hz]. inversion H as [u m V' |u m V']; subst; [|exfalso; eapply D; reflexivity]. exists m. split; [assumption|]. split; [reflexivity|lia].
Qed.
Lemma get_int_iff old j : (exists z, get_int old j = Some z) <-> fits_int j.
Proof.
  split.
  - intros [z E]. destruct j; try discriminate E; [constructor|]. cbn [get_int] in E. apply parse_int_iff in E as [V I]. econstructor; eassumption.
  - intros H. destruct H as [|t z V I]; cbn [get_int]; [eauto|]. exists z. apply parse_int_iff. auto.
Qed.
Lemma get_uint_iff big old j : 0 < big -> (exists z, get_uint big old j = Some z) <-> fits_uint big j.
Proof.
  intros B. split.
  - intros [z E]. destruct j; try discriminate E; [constructor|]. cbn [get_uint] in E. apply parse_uint_iff in E as [V I]; [|assumption]. econstructor; eassumption.
  - intros H. destruct H as [|t z V I]; cbn [get_uint]; [eauto|]. exists z. apply parse_uint_iff; auto.
Qed.
Lemma get_str_iff old j : (exists s, get_str old j = Some s) <-> fits_text j.
Proof.
  unfold fits_text. split.
  - intros [s E]. destruct j; try discriminate E; eauto.
  - intros [->|[s ->]]; cbn [get_str]; eauto.
Qed.
Lemma get_all_iff {A B} (f : A -> option B) l : (exists ys, get_all f l = Some ys) <-> Forall (fun x => exists y, f x = Some y) l.
Proof.
  induction l as [|x l IH]; cbn [get_all].
  - split; [constructor|eauto].
  - destruct (f x) as [y|] eqn:E.
    + destruct (get_all f l) as [ys|].
      * split; [intros _; constructor; [eauto|apply IH; eauto]|eauto].
      * split; [intros [? Q]; discriminate Q|]. intros F. inversion F as [|? ? _ Fl]; subst. apply IH in Fl as [ys Q]. discriminate Q.
    + split; [intros [? Q]; discriminate Q|]. intros F. inversion F as [|? ? [y Q] _]; subst. congruence.
Qed.
Lemma get_strs_iff j : (exists s, get_strs j = Some s) <-> fits_texts j.
Proof.
  unfold fits_texts. split.
  - intros [s E]. destruct j as [| | | |l|]; try discriminate E; [auto|]. right. exists l. split; [reflexivity|]. cbn [get_strs] in E.
    assert (exists ys, get_all (get_str []) l = Some ys) as X by eauto. apply get_all_iff in X. eapply Forall_impl; [|exact X]. intros a. apply get_str_iff.
  - intros [->|(l & -> & F)]; cbn [get_strs]; [eauto|]. apply get_all_iff. eapply Forall_impl; [|exact F]. intros a. apply get_str_iff.
Qed.
Lemma get_map_iff old j : (exists s, get_map old j = Some s) <-> fits_map j.
Proof.
  unfold fits_map.
  assert (Q : forall (kv : bytes * json), (exists y : bytes * Z, match get_int 0 (snd kv) with Some z => Some (fst kv, z) | None => None end = Some y) <-> fits_int (snd kv)).
  { intros kv. rewrite <- (get_int_iff 0). destruct (get_int 0 (snd kv)) as [z|]; split; eauto; intros [? X]; discriminate X. }
  split.
  - intros [s E]. destruct j as [| | | | |l]; try discriminate E; [auto|]. right. exists l. split; [reflexivity|]. cbn [get_map] in E.
    destruct (get_all _ l) as [es|] eqn:Ea; [|discriminate E].
    assert (exists ys, get_all (fun kv : bytes * json => match get_int 0 (snd kv) with Some z => Some (fst kv, z) | None => None end) l = Some ys) as X by eauto.
    apply get_all_iff in X. eapply Forall_impl; [|exact X]. intros a. apply Q.
  - intros [->|(l & -> & F)]; cbn [get_map]; [eauto|].
    assert (exists ys, get_all (fun kv : bytes * json => match get_int 0 (snd kv) with Some z => Some (fst kv, z) | None => None end) l = Some ys) as (es & ->).
    { apply get_all_iff. eapply Forall_impl; [|exact F]. intros a. apply Q. }
    eauto.
Qed.

(* ---------- members ---------- *)
Lemma map_some {A B} (f : A -> B) o : (exists y, option_map f o = Some y) <-> exists x, o = Some x.
Proof. destruct o; cbn [option_map]; split; eauto; intros [? Q]; discriminate Q. Qed.
Lemma key_dis a b k : bytes_eqb (fold_key a) (fold_key b) = false -> key_is a k = true -> key_is b k = true -> False.
Proof.
  intros E H Hb. unfold key_is in *. destruct (bytes_eqb_spec (fold_key a) (fold_key k)) as [Ea|]; [|discriminate]. destruct (bytes_eqb_spec (fold_key b) (fold_key k)) as [Eb|]; [|discriminate].
  rewrite Ea, Eb, bytes_eqb_refl in E. discriminate E.
Qed.
Definition low (name : bytes) : bool := forallb (fun b => b2n b <? 0x80) name.
Lemma low_ok name : low name = true -> Forall (fun b => b2n b < 0x80) name.
Proof. intros H. apply Forall_forall. intros b I. unfold low in H. rewrite forallb_forall in H. specialize (H b I). lia. Qed.
Lemma same_key name kv : ascii_key kv -> low name = true -> key_is name (fst kv) = true <-> same_name name (fst kv).
Proof. intros A L. apply key_iff; [apply low_ok; assumption|exact A]. Qed.

Ltac member Ak :=
  match goal with
  | K : key_is ?a ?k = true |- _ => split; [intros H; constructor; intros S; cbn [fst snd] in S |- *;
      match type of S with same_name ?b _ => apply (same_key b (_, _) Ak eq_refl) in S; cbn [fst] in S; try (exfalso; exact (key_dis a b k eq_refl K S)); exact H end
     |intros H; destruct H as [];
      match goal with X : same_name a _ -> _ |- _ => exact (X (proj1 (same_key a (_, _) Ak eq_refl) K)) end]
  end.
Lemma set_meta_iff m kv : ascii_key kv -> (exists m', set_meta m kv = Some m') <-> meta_member kv.
Proof.
  intros Ak. destruct kv as [k j]. destruct m as [bu iv la nc ts fi ve ex]. cbn [set_meta].
  destruct (key_is (str "build") k) eqn:K1; [rewrite map_some, get_int_iff; member Ak|].
  destruct (key_is (str "ip_version") k) eqn:K2; [rewrite map_some, get_uint_iff by reflexivity; member Ak|].
  destruct (key_is (str "languages") k) eqn:K3; [rewrite map_some, get_map_iff; member Ak|].
  destruct (key_is (str "node_count") k) eqn:K4; [rewrite map_some, get_int_iff; member Ak|].
  destruct (key_is (str "total_size") k) eqn:K5; [rewrite map_some, get_int_iff; member Ak|].
  destruct (key_is (str "fields") k) eqn:K6; [rewrite map_some, get_strs_iff; member Ak|].
  destruct (key_is (str "version") k) eqn:K7; [rewrite map_some, get_str_iff; member Ak|].
  destruct (key_is (str "extra") k) eqn:K8; [rewrite map_some, get_strs_iff; member Ak|].
  split; [|eauto]. intros _. constructor; intros S; exfalso; cbn [fst] in S;
    match type of S with same_name ?b _ => apply (same_key b (k, j) Ak eq_refl) in S; cbn [fst] in S end; congruence.
Qed.
Lemma set_version_iff v kv : ascii_key kv -> (exists v', set_version v kv = Some v') <-> version_member kv.
Proof.
  intros Ak. destruct kv as [k j]. destruct v as [ty co bu ve la ex]. cbn [set_version].
  destruct (key_is (str "IpType") k) eqn:K1; [rewrite map_some, get_int_iff; member Ak|].
  destruct (key_is (str "Count") k) eqn:K2; [rewrite map_some, get_uint_iff by reflexivity; member Ak|].
  destruct (key_is (str "Build") k) eqn:K3; [rewrite map_some, get_int_iff; member Ak|].
  destruct (key_is (str "Version") k) eqn:K4; [rewrite map_some, get_str_iff; member Ak|].
  destruct (key_is (str "Languages") k) eqn:K5; [rewrite map_some, get_strs_iff; member Ak|].
  destruct (key_is (str "ExtraInfo") k) eqn:K6; [rewrite map_some, get_strs_iff; member Ak|].
  split; [|eauto]. intros _. constructor; intros S; exfalso; cbn [fst] in S;
    match type of S with same_name ?b _ => apply (same_key b (k, j) Ak eq_refl) in S; cbn [fst] in S end; congruence.
Qed.
Lemma set_all_iff {A} (f : A -> bytes * json -> option A) P ms : (forall a kv, In kv ms -> (exists a', f a kv = Some a') <-> P kv) -> forall a, (exists a', set_all f a ms = Some a') <-> Forall P ms.
Proof.
  induction ms as [|kv ms IH]; intros H a; cbn [set_all].
  - split; [constructor|eauto].
  - pose proof (H a kv (or_introl eq_refl)) as Hk. destruct (f a kv) as [a1|].
    + rewrite IH by (intros; apply H; right; assumption). split; [intros F; constructor; [apply Hk; eauto|assumption]|intros F; inversion F; assumption].
    + split; [intros [? Q]; discriminate Q|]. intros F. inversion F as [|? ? Fk _]; subst. apply Hk in Fk as [? Q]. discriminate Q.
Qed.

(** C54: a description is accepted exactly when every member of a known name has a value that fits (and nothing is nested too deep). *)
Theorem C54_accepts : forall ms t w1 w2, writes (JObj ms) t -> white w1 -> white w2 -> Forall ascii_key ms ->
  ((exists m, unmarshal_meta (w1 ++ t ++ w2) = Some m) <-> Forall meta_member ms /\ ~ too_deep (JObj ms)) /\
  ((exists v, unmarshal_version (w1 ++ t ++ w2) = Some (Some v)) <-> Forall version_member ms /\ ~ too_deep (JObj ms)).
Proof.
  intros ms t w1 w2 W H1 H2 Ka. rewrite Forall_forall in Ka. unfold unmarshal_meta, unmarshal_version.
  destruct (C54_any_text (JObj ms) t w1 w2 W H1 H2) as [P1 P2].
  assert (too_deep (JObj ms) \/ ~ too_deep (JObj ms)) as [Dp|Dp] by (unfold too_deep; lia).
  { rewrite (P2 Dp). split; (split; [intros [? Q]; discriminate Q|intros [_ Q]; contradiction]). }
  rewrite (P1 Dp). assert (forall A : Prop, A /\ ~ too_deep (JObj ms) <-> A) as DA by tauto. rewrite !DA. split.
  - apply set_all_iff. intros a kv I. apply set_meta_iff, Ka, I.
  - rewrite <- (set_all_iff set_version version_member ms) with (a := mkVersion 0 0 0 [] [] []) by (intros a kv I; apply set_version_iff, Ka, I).
    destruct (set_all _ _ ms) as [v|]; cbn [option_map]; split; intros [x Q]; try discriminate Q; eauto.
Qed.
(** C54: the number of nodes of a description is the integer that is written, whatever way. *)
Theorem C54_number : forall k n t w1 w2, writes (JObj [(k, JNum n)]) t -> white w1 -> white w2 -> ascii_key (k, JNum n) ->
  same_name (str "node_count") k ->
  forall m, unmarshal_meta (w1 ++ t ++ w2) = Some m <-> exists z, integer_value n z /\ int64 z /\ m = mkMeta 0 0 [] z 0 [] [] [].
Proof.
  intros k n t w1 w2 W H1 H2 Ka S m. unfold unmarshal_meta. rewrite (parse_shallow (JObj [(k, JNum n)])) by (assumption || (cbn; lia)).
  apply (same_key (str "node_count") (k, JNum n) Ka eq_refl) in S. cbn [fst] in S. cbn [set_all set_meta].
  destruct (key_is (str "build") k) eqn:K1; [exfalso; exact (key_dis (str "build") (str "node_count") k eq_refl K1 S)|].
  destruct (key_is (str "ip_version") k) eqn:K2; [exfalso; exact (key_dis (str "ip_version") (str "node_count") k eq_refl K2 S)|].
  destruct (key_is (str "languages") k) eqn:K3; [exfalso; exact (key_dis (str "languages") (str "node_count") k eq_refl K3 S)|].
  rewrite S. cbn [get_int]. destruct (parse_int n) as [z|] eqn:E; cbn [option_map].
  - pose proof (proj1 (parse_int_iff n z) E) as [V I]. split.
    + intros Q. exists z. split; [assumption|]. split; [assumption|congruence].
    + intros (z' & V' & I' & ->). rewrite (proj2 (parse_int_iff n z') (conj V' I')) in E. congruence.
  - split; [discriminate|]. intros (z' & V' & I' & ->). rewrite (proj2 (parse_int_iff n z') (conj V' I')) in E. congruence.
Qed.
Print Assumptions C54_accepts.
Print Assumptions C54_number.

(* ---------- cases ---------- *)
Example C54_accepts_case :
  meta_member (str "NODE_count", JNum (str "-9223372036854775808")) /\ ~ meta_member (str "node_count", JNum (str "9223372036854775808")) /\
  ~ meta_member (str "ip_version", JNum (str "1e0")) /\ meta_member (str "fields", JArr [JStr (str "asn"); JNull]).
Proof.
  split; [|split; [|split]].
  - apply (set_meta_iff (mkMeta 0 0 [] 0 0 [] [] [])); [apply low_ok; reflexivity|]. vm_compute. eauto.
  - intros H. apply (set_meta_iff (mkMeta 0 0 [] 0 0 [] [] [])) in H as [m E]; [|apply low_ok; reflexivity]. vm_compute in E. discriminate E.
  - intros H. apply (set_meta_iff (mkMeta 0 0 [] 0 0 [] [] [])) in H as [m E]; [|apply low_ok; reflexivity]. vm_compute in E. discriminate E.
  - apply (set_meta_iff (mkMeta 0 0 [] 0 0 [] [] [])); [apply low_ok; reflexivity|]. vm_compute. eauto.
Qed.

(** Lemmas about the exporter and BuildIPData. *)
From Coq Require Sorting.Permutation.
From Verif Require Import Base NetIP IpNet Spec IpNetProofs SplitProofs IpNetProofs2 Ipdb SpecIpdb SpecExport Export.
Open Scope nat_scope.

(* ---------- separators ---------- *)
Lemma no_byte_app c a b : no_byte c (a ++ b) <-> no_byte c a /\ no_byte c b.
Proof. unfold no_byte. rewrite in_app_iff. tauto. Qed.
Lemma no_byte_cons c x b : no_byte c (x :: b) <-> c <> x /\ no_byte c b.
Proof. unfold no_byte. cbn [In]. split; [intros H; split; intros Q; apply H; auto|intros [H1 H2] [Q|Q]; auto]. Qed.
Lemma no_byte_nil c : no_byte c [].
Proof. intros []. Qed.
Lemma no_byte_join c sep l : c <> sep -> Forall (no_byte c) l -> no_byte c (join sep l).
Proof.
  intros N. induction l as [|x l IH]; intros H; [apply no_byte_nil|]. inversion H; subst.
  destruct l as [|y l]; [assumption|]. change (join sep (x :: y :: l)) with (x ++ sep :: join sep (y :: l)).
  rewrite no_byte_app, no_byte_cons. auto.
Qed.
Lemma join_head sep a x l : a ++ join sep (x :: l) = join sep ((a ++ x) :: l).
Proof. destruct l; [reflexivity|]. cbn [join]. rewrite <- app_assoc. reflexivity. Qed.

Lemma name_ok_4 s : name_ok s -> no_byte x7c s /\ no_byte x2c s /\ no_byte x3a s /\ no_byte x3d s.
Proof. unfold name_ok, no_bytes. intros H. cbn in H. repeat (inversion H as [|? ? ? H']; subst; clear H; rename H' into H). auto. Qed.
Lemma value_ok_5 s : value_ok s -> no_byte x7c s /\ no_byte x2c s /\ no_byte x3a s /\ no_byte x3d s /\ no_byte x2f s.
Proof. unfold value_ok, no_bytes. intros H. cbn in H. repeat (inversion H as [|? ? ? H']; subst; clear H; rename H' into H). auto 10. Qed.

(* ---------- filters ---------- *)
Definition filter_is (fields : list bytes) (r : rule) (f : Filter) : Prop :=
  offset_of (rkey r) fields = Some (fKeyOffset f) /\ fNot f = rnot r /\ fValues f = rvals r /\
  fOffsets f = offsets fields (rkeep r).

Lemma fold_upd_length (data : list bytes) os ret :
  length (fold_left (fun ret o => match nth_error data o with Some x => upd ret o x | None => ret end) os ret) = length ret.
Proof.
  revert ret; induction os as [|o os IH]; intros ret; [reflexivity|]. cbn [fold_left]. rewrite IH.
  destruct (nth_error data o); [apply upd_length|reflexivity].
Qed.

Lemma fold_upd_nth (data : list bytes) os ret j : length ret = length data ->
  nth_error (fold_left (fun ret o => match nth_error data o with Some x => upd ret o x | None => ret end) os ret) j =
  if existsb (Nat.eqb j) os then nth_error data j else nth_error ret j.
Proof.
  revert ret; induction os as [|o os IH]; intros ret L; [reflexivity|]. cbn [fold_left existsb]. rewrite IH.
  2:{ destruct (nth_error data o); [rewrite upd_length|]; assumption. }
  destruct (existsb _ os) eqn:E; [rewrite orb_true_r; reflexivity|]. rewrite orb_false_r.
  destruct (Nat.eqb_spec j o) as [->|N].
  - destruct (nth_error data o) as [x|] eqn:D.
    + rewrite nth_error_upd. assert (o < length data) by (apply nth_error_Some; congruence).
      replace ((o =? o) && (o <? length ret)) with true by lia. reflexivity.
    + apply nth_error_None in D. apply nth_error_None. lia.
  - destruct (nth_error data o) as [x|] eqn:D; [|reflexivity]. rewrite nth_error_upd.
    replace (o =? j) with false by lia. reflexivity.
Qed.

Lemma nodup_nth {A} (l : list A) i j x : NoDup l -> nth_error l i = Some x -> nth_error l j = Some x -> i = j.
Proof. intros N Hi Hj. apply (proj1 (NoDup_nth_error l) N); [apply nth_error_Some; congruence|congruence]. Qed.

Lemma offset_of_nodup fields i f : NoDup fields -> nth_error fields i = Some f -> offset_of f fields = Some i.
Proof.
  intros N H. destruct (offset_of_In f fields) as [j E]; [eapply nth_error_In; eassumption|].
  rewrite E. f_equal. apply offset_of_Some in E as [E _]. eapply nodup_nth; eassumption.
Qed.

Lemma offsets_In fields keep i f : NoDup fields -> nth_error fields i = Some f ->
  existsb (Nat.eqb i) (offsets fields keep) = in_array f keep.
Proof.
  intros N H. unfold offsets, in_array. induction keep as [|k keep IH]; [reflexivity|].
  cbn [flat_map existsb]. rewrite existsb_app, IH. f_equal.
  destruct (bytes_eqb_spec f k) as [<-|Ne].
  - rewrite (offset_of_nodup _ _ _ N H). cbn. rewrite Nat.eqb_refl. reflexivity.
  - destruct (offset_of k fields) as [j|] eqn:E; [|reflexivity]. cbn. rewrite orb_false_r.
    apply Nat.eqb_neq. intros ->. apply offset_of_Some in E as [E _]. congruence.
Qed.

Lemma fmatch_spec f v : fmatch f v = true <-> if fNot f then ~ In v (fValues f) else In v (fValues f).
Proof.
  unfold fmatch. destruct (fNot f).
  - rewrite <- in_array_iff. destruct (in_array v (fValues f)); cbn; split; congruence.
  - apply in_array_iff.
Qed.

Lemma extract_length f row : length (extract f row) = length row.
Proof.
  unfold extract. destruct (nth_error row _); [|reflexivity]. destruct (fmatch _ _); [|reflexivity].
  rewrite fold_upd_length. apply repeat_length.
Qed.

Lemma extract_spec fields r f row : NoDup fields -> filter_is fields r f -> length row = length fields ->
  (~ rule_holds fields row r /\ extract f row = row) \/ (rule_holds fields row r /\ blanked fields row r (extract f row)).
Proof.
  intros N [K [E1 [E2 E3]]] L.
  assert (fKeyOffset f < length fields) as B by (eapply offset_of_lt; eassumption).
  assert (exists v, nth_error row (fKeyOffset f) = Some v) as [v V].
  { destruct (nth_error row (fKeyOffset f)) eqn:Q; [eauto|]. apply nth_error_None in Q. lia. }
  pose proof (fmatch_spec f v) as M. rewrite E1, E2 in M.
  apply offset_of_Some in K as [K _].
  destruct (fmatch f v) eqn:Q.
  - right. split; [exists (fKeyOffset f), v; split; [assumption|split; [assumption|tauto]]|].
    unfold extract. rewrite V, Q. split; [rewrite fold_upd_length; apply repeat_length|].
    intros i g x G X. rewrite fold_upd_nth by apply repeat_length. rewrite E3, (offsets_In _ _ _ _ N G).
    destruct (in_array g (rkeep r)); [assumption|].
    assert (i < length row) by (apply nth_error_Some; congruence).
    apply nth_error_repeat. assumption.
  - left. split.
    + intros [i [x [I [X H]]]]. assert (i = fKeyOffset f) as -> by (eapply nodup_nth; eassumption).
      rewrite V in X. injection X as <-. apply M in H. discriminate.
    + unfold extract. rewrite V, Q. reflexivity.
Qed.

Lemma filters_spec fields rs fs row : NoDup fields -> Forall2 (filter_is fields) rs fs -> length row = length fields ->
  apply_rules fields rs row (fold_left (fun ret f => extract f ret) fs row).
Proof.
  intros N H. revert row; induction H as [|r f rs fs H1 H2 IH]; intros row L; [constructor|].
  cbn [fold_left]. destruct (extract_spec fields r f row N H1 L) as [[A B]|[A B]].
  - apply ar_skip; [assumption|]. rewrite B. apply IH. assumption.
  - apply ar_apply with (row' := extract f row); [assumption|assumption|]. apply IH. rewrite extract_length. assumption.
Qed.

Lemma filters_length fs row : length (fold_left (fun ret f => extract f ret) fs row) = length row.
Proof. revert row; induction fs as [|f fs IH]; intros row; [reflexivity|]. cbn [fold_left]. rewrite IH. apply extract_length. Qed.

Lemma blanked_fun fields row r a b : length row = length fields -> blanked fields row r a -> blanked fields row r b -> a = b.
Proof.
  intros L [La Ha] [Lb Hb]. apply nth_ext with (d := []) (d' := []); [congruence|].
  intros i Hi. rewrite La in Hi.
  destruct (nth_error fields i) as [f|] eqn:F; [|apply nth_error_None in F; lia].
  destruct (nth_error row i) as [v|] eqn:V; [|apply nth_error_None in V; lia].
  specialize (Ha _ _ _ F V). specialize (Hb _ _ _ F V).
  apply nth_error_nth with (d := []) in Ha. apply nth_error_nth with (d := []) in Hb. congruence.
Qed.

Lemma apply_rules_length fields rs row out : apply_rules fields rs row out -> length out = length row.
Proof. induction 1 as [| |? ? ? ? ? ? [Hl _]]; congruence. Qed.

Lemma apply_rules_fun fields rs row a : apply_rules fields rs row a -> length row = length fields ->
  forall b, apply_rules fields rs row b -> a = b.
Proof.
  induction 1 as [row|r rs row out N A IH|r rs row row' out H B A IH]; intros L b X; inversion X; subst; auto; try contradiction.
  match goal with H1 : blanked _ _ _ ?x |- _ => assert (row' = x) as -> by (eapply blanked_fun; eassumption) end.
  apply IH; [destruct B; congruence|assumption].
Qed.

(* ---------- remapKey ---------- *)
Lemma upd_mid {A} (pre : list A) x rest v : upd (pre ++ x :: rest) (length pre) v = (pre ++ [v]) ++ rest.
Proof. induction pre as [|y pre IH]; [reflexivity|]. cbn [app length upd]. rewrite IH. reflexivity. Qed.
Lemma remap_loop_spec fm data fields : forall pre,
  remap_loop (length pre) (Select fm fields) data (pre ++ repeat [] (length fields)) =
  Ok (pre ++ map (field_value fm data) fields).
Proof.
  induction fields as [|f fs IH]; intros pre; [reflexivity|].
  cbn [length repeat].
  change (Select fm (f :: fs)) with
    ((match assoc f fm with Some v => mkPair f v | None => mkPair [] [] end) :: Select fm fs).
  cbn [map remap_loop].
  assert (field_value fm data f = match assoc (pIntern match assoc f fm with Some v => mkPair f v | None => mkPair [] [] end) data
          with Some v => v | None => [] end) as ->.
  { unfold field_value. destruct (assoc f fm); reflexivity. }
  destruct (assoc (pIntern _) data) as [v|].
  - rewrite app_length. cbn [length]. replace (length pre <? _) with true by lia.
    rewrite upd_mid. replace (S (length pre)) with (length (pre ++ [v])) by (rewrite app_length; cbn; lia).
    rewrite IH, <- app_assoc. reflexivity.
  - replace (S (length pre)) with (length (pre ++ [[] : bytes])) by (rewrite app_length; cbn; lia).
    specialize (IH (pre ++ [[] : bytes])). rewrite <- !app_assoc in IH. exact IH.
Qed.

Lemma remapKey_spec e fm data : remapKey e (Select fm (eFields e)) data = Ok (map (field_value fm data) (eFields e)).
Proof. apply (remap_loop_spec fm data (eFields e) []). Qed.

Lemma Export_spec e fm data : Export e (Select fm (eFields e)) data =
  Ok (fold_left (fun ret f => extract f ret) (eFilters e) (map (field_value fm data) (eFields e))).
Proof. unfold Export. rewrite remapKey_spec. reflexivity. Qed.

(* ---------- the parser ---------- *)
Lemma buildFilter_is efields kc fields f : forallb (fun f => in_array f efields) fields = true ->
  buildFilter efields kc fields = Some f ->
  exists r, filter_is efields r f /\ in_force efields r = true /\ rkeep r = fields.
Proof.
  intros HF H. unfold buildFilter in H.
  destruct (split x3d kc) as [|k [|c [|? ?]]]; try discriminate.
  destruct (offset_of k efields) as [i|] eqn:E; [|discriminate].
  assert (in_array k efields = true) as HK.
  { apply in_array_iff. apply offset_of_Some in E as [E _]. eapply nth_error_In; eassumption. }
  assert (H' : f = mkFilter i (match c with x21 :: _ => true | _ => false end)
      (split x2f (match c with x21 :: c' => c' | _ => c end)) (offsets efields fields)).
  { destruct c as [|[] c]; injection H as <-; reflexivity. }
  subst f. eexists (mkRule k _ _ fields). unfold filter_is, in_force. cbn. rewrite E, HK, HF. auto 10.
Qed.

Lemma parse_filters efields gs : exists rs,
  Forall2 (filter_is efields) rs (flat_map (fun g => match parseGroup efields g with Some f => [f] | None => [] end) gs) /\
  Forall (fun r => in_force efields r = true) rs.
Proof.
  induction gs as [|g gs [rs [IH1 IH2]]]; [exists []; split; constructor|].
  cbn [flat_map]. destruct (parseGroup efields g) as [f|] eqn:E; [|exists rs; split; assumption].
  unfold parseGroup in E. destruct (split x2c g) as [|f0 fs]; [discriminate|].
  destruct (split x3a f0) as [|kc [|v [|? ?]]]; try discriminate.
  destruct (forallb _ _) eqn:F; [|discriminate].
  destruct (buildFilter_is _ _ _ _ F E) as [r [R1 [R2 _]]].
  exists (r :: rs). split; constructor; assumption.
Qed.

Lemma split2 sep a b : no_byte sep a -> no_byte sep b -> split sep (a ++ sep :: b) = [a; b].
Proof. intros A B. rewrite split_app by assumption. rewrite split_single by assumption. reflexivity. Qed.

Lemma Forall_impl2 {A} (P Q : A -> Prop) l : (forall a, P a -> Q a) -> Forall P l -> Forall Q l.
Proof. intros H F. eapply Forall_impl; [exact H|assumption]. Qed.

Lemma parseGroup_show efields r : rule_ok r ->
  match parseGroup efields (show_group r) with
  | Some f => in_force efields r = true /\ filter_is efields r f
  | None => in_force efields r = false
  end.
Proof.
  intros [K [V1 V2] Nt [P1 P2]]. unfold show_group. destruct r as [k nt vs ks]. cbn [rkey rnot rvals rkeep] in *.
  destruct ks as [|k1 ks]; [congruence|]. inversion P2 as [|? ? Pk Pks]; subst.
  destruct (name_ok_4 _ K) as [_ [Kc [Kcol Keq]]]. destruct (name_ok_4 _ Pk) as [_ [Pc [Pcol _]]].
  set (c := (if nt then str "!" else []) ++ join x2f vs).
  assert (forall x, x <> x2f -> x <> x21 -> (forall s, value_ok s -> no_byte x s) -> no_byte x c) as NC.
  { intros x N1 N2 H. unfold c. apply no_byte_app. split.
    - destruct nt; [intros [Q|[]]; cbn in Q; congruence|apply no_byte_nil].
    - apply no_byte_join; [assumption|]. eapply Forall_impl2; [exact H|assumption]. }
  assert (no_byte x2c c) as Cc by (apply NC; [discriminate|discriminate|]; intros s S; apply value_ok_5 in S; tauto).
  assert (no_byte x3a c) as Ccol by (apply NC; [discriminate|discriminate|]; intros s S; apply value_ok_5 in S; tauto).
  assert (no_byte x3d c) as Ceq by (apply NC; [discriminate|discriminate|]; intros s S; apply value_ok_5 in S; tauto).
  assert (k ++ str "=" ++ (if nt then str "!" else []) ++ join x2f vs ++ str ":" ++ join x2c (k1 :: ks)
        = join x2c (((k ++ x3d :: c) ++ x3a :: k1) :: ks)) as ->.
  { change (x3a :: k1) with (str ":" ++ k1). change (x3d :: c) with (str "=" ++ c).
    rewrite <- join_head. rewrite <- join_head. unfold c. rewrite <- !app_assoc. reflexivity. }
  unfold parseGroup. rewrite split_join.
  2: discriminate.
  2:{ constructor; [|eapply Forall_impl2; [|exact Pks]; intros s S; apply name_ok_4 in S; tauto].
      rewrite !no_byte_app, !no_byte_cons. repeat split; try assumption; discriminate. }
  rewrite split2.
  2:{ rewrite !no_byte_app, !no_byte_cons. repeat split; try assumption; discriminate. }
  2: assumption.
  unfold in_force. cbn [rkey rkeep].
  destruct (forallb _ (k1 :: ks)) eqn:F; [|apply andb_false_r]. rewrite andb_true_r.
  unfold buildFilter. rewrite split2 by assumption.
  destruct (offset_of k efields) as [i|] eqn:O.
  2:{ apply offset_of_None in O. destruct (in_array k efields) eqn:I; [|reflexivity]. apply in_array_iff in I. contradiction. }
  assert (in_array k efields = true) as I by (apply in_array_iff; apply offset_of_Some in O as [O _]; eapply nth_error_In; eassumption).
  assert (match c with
          | x21 :: c' => Some (mkFilter i true (split x2f c') (offsets efields (k1 :: ks)))
          | _ => Some (mkFilter i false (split x2f c) (offsets efields (k1 :: ks))) end
        = Some (mkFilter i nt vs (offsets efields (k1 :: ks)))) as ->.
  { assert (split x2f (join x2f vs) = vs) as S.
    { apply split_join; [assumption|]. eapply Forall_impl2; [|exact V2]. intros s Q. apply value_ok_5 in Q. tauto. }
    unfold c. destruct nt.
    - transitivity (Some (mkFilter i true (split x2f (join x2f vs)) (offsets efields (k1 :: ks)))); [reflexivity|]. rewrite S. reflexivity.
    - cbn [app]. destruct vs as [|v vs]; [congruence|]. specialize (Nt eq_refl v eq_refl).
      destruct (join x2f (v :: vs)) as [|b rest] eqn:J; [rewrite S; reflexivity|].
      assert (b <> x21) as Nb.
      { intros ->. destruct v as [|b0 v].
        - destruct vs; cbn in J; [discriminate|]. injection J as J _. discriminate.
        - assert (b0 = x21) as -> by (destruct vs; cbn in J; injection J as J _; assumption).
          apply Nt. exists v. reflexivity. }
      destruct b; try (rewrite S; reflexivity). congruence. }
  split; [assumption|]. unfold filter_is. cbn. auto.
Qed.

Lemma ParseRule_show fields rs : fields <> [] -> Forall (no_bytes (str "|,")) fields -> Forall rule_ok rs -> show_rules fields rs <> [] ->
  exists e, ParseRule (show_rules fields rs) = Some e /\ eFields e = fields /\
    Forall2 (filter_is fields) (filter (in_force fields) rs) (eFilters e).
Proof.
  intros HN HF HR HS.
  assert (ParseRule (show_rules fields rs) = match split x7c (show_rules fields rs) with
      | [] => None
      | g0 :: gs => Some (mkExporter (split x2c g0)
            (flat_map (fun g => match parseGroup (split x2c g0) g with Some f => [f] | None => [] end) gs)) end) as ->.
  { unfold ParseRule. destruct (show_rules fields rs); [congruence|reflexivity]. }
  unfold show_rules. rewrite split_join.
  2: discriminate.
  2:{ constructor.
      - apply no_byte_join; [discriminate|]. eapply Forall_impl2; [|exact HF]. intros s S. inversion S; assumption.
      - apply Forall_forall. intros g G. apply in_map_iff in G as [r [<- I]].
        rewrite Forall_forall in HR. destruct (HR r I) as [K [V1 V2] Nt [P1 P2]]. unfold show_group.
        rewrite !no_byte_app. apply name_ok_4 in K.
        split; [tauto|]. split; [intros [Q|[]]; discriminate|].
        split; [destruct (rnot r); [intros [Q|[]]; discriminate|apply no_byte_nil]|].
        split; [apply no_byte_join; [discriminate|]; eapply Forall_impl2; [|exact V2]; intros s Q; apply value_ok_5 in Q; tauto|].
        split; [intros [Q|[]]; discriminate|].
        apply no_byte_join; [discriminate|]. eapply Forall_impl2; [|exact P2]. intros s Q. apply name_ok_4 in Q. tauto. }
  assert (split x2c (join x2c fields) = fields) as ->.
  { apply split_join; [assumption|]. eapply Forall_impl2; [|exact HF]. intros s S. inversion S as [|? ? ? S2]; subst. inversion S2; assumption. }
  eexists. split; [reflexivity|]. cbn [eFields eFilters]. split; [reflexivity|].
  clear HS. induction HR as [|r rs R HR IH]; [constructor|]. cbn [map flat_map filter].
  pose proof (parseGroup_show fields r R) as G. destruct (parseGroup fields (show_group r)) as [f|].
  - destruct G as [G1 G2]. rewrite G1. constructor; assumption.
  - rewrite G. assumption.
Qed.

(** The order in which a Go map is iterated does not matter when its values are distinct. *)
Lemma filter_single {A} (p : A -> bool) l : (forall a b, In a l -> In b l -> p a = true -> p b = true -> a = b) -> NoDup l ->
  forall l', Permutation.Permutation l l' -> filter p l = filter p l'.
Proof.
  intros U N l' P. induction P as [|x l l' P IH|x y l|l l' l'' P1 IH1 P2 IH2].
  - reflexivity.
  - inversion N; subst. cbn [filter]. rewrite IH; [reflexivity| |assumption]. intros a b Ha Hb. apply U; right; assumption.
  - cbn [filter]. destruct (p x) eqn:Px, (p y) eqn:Py; try reflexivity.
    exfalso. assert (y = x) by (apply U; cbn; auto). subst. inversion N; subst. cbn in *. tauto.
  - rewrite IH1 by assumption. apply IH2.
    + intros a b Ha Hb. apply U; (eapply Permutation.Permutation_in; [apply Permutation.Permutation_sym, P1|assumption]).
    + eapply Permutation.Permutation_NoDup; eassumption.
Qed.
Lemma ExtKeys_order f f' fields : NoDup (map snd f) -> Permutation.Permutation f f' -> ExtKeys f fields = ExtKeys f' fields.
Proof.
  intros N P. unfold ExtKeys. apply flat_map_ext. intros v. f_equal. apply filter_single; [| |assumption].
  - intros [k1 v1] [k2 v2] I1 I2. cbn [snd]. intros E1 E2.
    destruct (bytes_eqb_spec v v1), (bytes_eqb_spec v v2); try discriminate. subst.
    clear P E1 E2. induction f as [|[k w] f IH]; [destruct I1|]. cbn [map snd] in N. inversion N; subst.
    destruct I1 as [I1|I1], I2 as [I2|I2].
    + congruence.
    + injection I1 as -> ->. exfalso. apply H1. apply in_map_iff. exists (k2, v2). auto.
    + injection I2 as -> ->. exfalso. apply H1. apply in_map_iff. exists (k1, v2). auto.
    + apply IH; assumption.
  - eapply NoDup_map_inv. exact N.
Qed.

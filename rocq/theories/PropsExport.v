(** Property theorems C19-C23, C45, C46 (export and dump).
    Vocabulary: Spec.v, SpecIpdb.v, SpecExport.v. *)
From Verif Require Import Base NetIP IpNet Spec IpNetProofs SplitProofs IpNetProofs2 Ipdb SpecIpdb SpecExport Export ExportProofs BuildProofs Bits.
From Verif Require Import TrieProofs WriterProofs ReaderProofs OpenProofs PackProofs PropsIpdb DumpProofs.
Open Scope N_scope.

(** The exporter e works by the rules rs. *)
Definition means (e : Exporter) (rs : list rule) : Prop :=
  forall fm rec, exists out, Export e (Select fm (eFields e)) rec = Ok out /\ length out = length (eFields e) /\
    (NoDup (eFields e) -> apply_rules (eFields e) rs (map (field_value fm rec) (eFields e)) out).

(* ------------------------------------------------------------------ *)
(** C22: whatever the rule text, the exporter returns one value per selected field,
    by rules that only name selected fields. *)
Theorem C22_one_value_per_field : forall text e, ParseRule text = Some e ->
  exists rs, Forall (fun r => In (rkey r) (eFields e) /\ incl (rkeep r) (eFields e)) rs /\ means e rs.
Proof.
  intros text e H. unfold ParseRule in H.
  assert (exists g0 gs, e = mkExporter (split x2c g0)
      (flat_map (fun g => match parseGroup (split x2c g0) g with Some f => [f] | None => [] end) gs)) as [g0 [gs ->]].
  { destruct text; [discriminate|]. destruct (split x7c _) as [|g0 gs]; [discriminate|]. injection H as <-. eauto. }
  destruct (parse_filters (split x2c g0) gs) as [rs [H1 H2]]. exists rs. cbn [eFields]. split.
  - eapply Forall_impl; [|exact H2]. intros r Q. unfold in_force in Q. apply andb_true_iff in Q as [Q1 Q2].
    apply in_array_iff in Q1. split; [assumption|]. intros f I. rewrite forallb_forall in Q2. apply in_array_iff. auto.
  - intros fm rec. eexists. split; [apply Export_spec|]. cbn [eFields eFilters]. split.
    + rewrite filters_length. apply map_length.
    + intros N. apply filters_spec; [assumption|assumption|apply map_length].
Qed.
Print Assumptions C22_one_value_per_field.

(** C22: the rules determine the row. *)
Theorem C22_rules_deterministic : forall fields rs row a b, length row = length fields ->
  apply_rules fields rs row a -> apply_rules fields rs row b -> a = b /\ length a = length row.
Proof. intros. split; [eapply apply_rules_fun; eassumption|eapply apply_rules_length; eassumption]. Qed.
Print Assumptions C22_rules_deterministic.

(** C23: the documented syntax. *)
Theorem C23_documented_syntax : forall fields rs,
  fields <> [] -> Forall (no_bytes (str "|,")) fields -> Forall rule_ok rs -> show_rules fields rs <> [] ->
  exists e, ParseRule (show_rules fields rs) = Some e /\ eFields e = fields /\ means e (filter (in_force fields) rs).
Proof.
  intros fields rs H1 H2 H3 H4. destruct (ParseRule_show fields rs H1 H2 H3 H4) as [e [P [F G]]].
  exists e. split; [assumption|]. split; [assumption|]. intros fm rec. eexists. split; [apply Export_spec|].
  rewrite F. split; [rewrite filters_length; apply map_length|]. intros N.
  apply filters_spec; [assumption|assumption|apply map_length].
Qed.
Print Assumptions C23_documented_syntax.

(** The empty rule selects no exporter (all known columns are dumped). *)
Theorem C23_empty_rule : ParseRule [] = None.
Proof. reflexivity. Qed.
Print Assumptions C23_empty_rule.

(** The default rule of the repo (export.go:21) is such a text, and applying it. *)
Definition default_fields := map str ["country"; "province"; "city"; "isp"; "asn"; "continent"; "district"]%string.
Definition default_rules := [
  mkRule (str "country") true [str "中国"] [str "country"; str "continent"];
  mkRule (str "province") false [str "台湾"; str "中国台湾"] (map str ["country"; "province"; "continent"; "district"]%string) ].
Ltac no_bytes_solve := repeat constructor; unfold no_byte; cbn; intuition discriminate.
Example C23_case : show_rules default_fields default_rules =
    str "country,province,city,isp,asn,continent,district|country=!中国:country,continent|province=台湾/中国台湾:country,province,continent,district" /\
  Forall rule_ok default_rules /\ Forall (no_bytes (str "|,")) default_fields /\ NoDup default_fields /\
  filter (in_force default_fields) default_rules = default_rules.
Proof.
  split; [reflexivity|]. split.
  - constructor; [|constructor; [|constructor]]; (constructor; cbn [rkey rnot rvals rkeep];
      [no_bytes_solve|split; [discriminate|no_bytes_solve]|try discriminate|split; [discriminate|no_bytes_solve]]).
    intros _ v E [r R]. cbn in E. injection E as <-. discriminate.
  - split; [no_bytes_solve|]. split; [|reflexivity].
    repeat constructor; cbn; intuition discriminate.
Qed.

Example C22_case : exists e,
  ParseRule (show_rules default_fields default_rules) = Some e /\
  Export e (Select CommonFieldsMap (eFields e)) [(str "country_name", str "美国"); (str "region_name", str "加州"); (str "continent_code", str "NA")]
  = Ok [str "美国"; []; []; []; []; str "NA"; []] /\
  Export e (Select CommonFieldsMap (eFields e)) [(str "country_name", str "中国"); (str "region_name", str "台湾"); (str "city_name", str "台北")]
  = Ok [str "中国"; str "台湾"; []; []; []; []; []].
Proof. eexists. split; [vm_compute; reflexivity|]. split; vm_compute; reflexivity. Qed.

(* ------------------------------------------------------------------ *)
(** C19 *)

Definition first_ip (v : VersionInfo) : bytes := if IsIpV6 v then IPv6zero else IPv4zero.

Lemma first_ip_ok v : valid_ip (first_ip v) /\ addr (first_ip v) = fam_first (dump_family (vIpType v)) /\
  (dump_family (vIpType v) = fam4 \/ dump_family (vIpType v) = fam6).
Proof.
  unfold first_ip, IsIpV6, dump_family. destruct (_ =? 2)%Z; (split; [right; reflexivity|]); (split; [reflexivity|auto]).
Qed.

(** What a row of a dump is made of. *)
Definition exported (fm : list (bytes * bytes)) (ept : option Exporter) (ofs : list bytes)
  (rec : list (bytes * bytes)) (vs : list bytes) : Prop :=
  match ept with
  | Some e => Export e (Select fm (eFields e)) rec = Ok vs
  | None => vs = map (field_value fm rec) ofs
  end.
Definition row_at {R} (find : bytes -> res (IPNet * R)) (values : R -> list bytes -> Prop) (r : IpRaw) (b : block) : Prop :=
  net_is (cidr r) b /\ exists ip rec, valid_ip ip /\ addr ip = base b /\ find ip = Ok (cidr r, rec) /\ values rec (fvals r).

Lemma assoc_nodup {V} (fm : list (bytes * V)) k v : NoDup (map fst fm) -> In (k, v) fm -> assoc k fm = Some v.
Proof.
  induction fm as [|[k' v'] fm IH]; intros N I; [destruct I|]. cbn [map fst] in N. inversion N; subst. cbn [assoc].
  destruct I as [I|I].
  - injection I as -> ->. rewrite bytes_eqb_refl. reflexivity.
  - destruct (bytes_eqb_spec k' k) as [->|Ne]; [|apply IH; assumption]. exfalso. apply H1. apply in_map_iff. exists (k, v). auto.
Qed.

Lemma row_values_exported fm ept fields rec : NoDup (map fst fm) ->
  exists vs, row_values fm ept (out_fields fm fields ept) rec = Ok vs /\ exported fm ept (out_fields fm fields ept) rec vs.
Proof.
  intros N. destruct ept as [e|]; cbn [row_values out_fields exported].
  - rewrite Export_spec. eauto.
  - eexists. split; [reflexivity|]. apply map_ext_in. intros f I. unfold field_value.
    assert (exists k, assoc f fm = Some k) as [k ->]; [|reflexivity].
    unfold ExtKeys in I. apply in_flat_map in I as [v [_ I]]. apply in_map_iff in I as [[k w] [Q I]]. cbn in Q. subst k.
    apply filter_In in I as [I _]. exists w. apply assoc_nodup; assumption.
Qed.

(** C19: a complete, well-behaved finder: the dump terminates and covers the family. *)
Theorem C19_dump_covers : forall fm fields ept v find, NoDup (map fst fm) ->
  finder_ok (dump_family (vIpType v)) find -> finder_total (dump_family (vIpType v)) find ->
  exists fuel0 rows bs,
    (forall fuel, (fuel0 <= fuel)%nat -> BuildIPData fuel fm fields ept v find = Ok (out_fields fm fields ept, rows)) /\
    tiles (fam_first (dump_family (vIpType v))) bs (fam_end (dump_family (vIpType v))) /\
    Forall2 (row_at find (exported fm ept (out_fields fm fields ept))) rows bs.
Proof.
  intros fm fields ept v find N HF HT. destruct (first_ip_ok v) as [V [E Hfam]]. set (fam := dump_family (vIpType v)) in *.
  pose proof (starts_first find (row_values fm ept (out_fields fm fields ept)) fam Hfam HF _ V E) as S.
  destruct (build_total find (row_values fm ept (out_fields fm fields ept)) fam Hfam HF HT) with (ip := first_ip v) as [fuel [rows B]]; try assumption.
  { intros info. destruct (row_values_exported fm ept fields info N) as [vs [Q _]]. eauto. }
  destruct (build_ok_tiles find _ fam Hfam HF fuel _ _ V S B) as [bs [F2 T]].
  exists fuel, rows, bs. split; [|split].
  - intros fuel' L. unfold BuildIPData. change (if IsIpV6 v then IPv6zero else IPv4zero) with (first_ip v).
    rewrite (build_mono _ _ _ _ _ _ L B). reflexivity.
  - rewrite <- E. exact T.
  - clear - F2 N. induction F2 as [|r b rows bs H _ IH]; constructor; [|assumption].
    destruct H as [H1 [_ [ip [rec [H2 [H3 [H4 H5]]]]]]]. split; [assumption|]. exists ip, rec. repeat split; try assumption.
    destruct (row_values_exported fm ept fields rec N) as [vs [Q X]]. rewrite Q in H5. injection H5 as <-. assumption.
Qed.
Print Assumptions C19_dump_covers.

(** C19: any successful dump over a well-behaved (possibly incomplete) finder covers the family. *)
Theorem C19_success_covers : forall fuel fm fields ept v find ofs rows, NoDup (map fst fm) ->
  finder_ok (dump_family (vIpType v)) find -> BuildIPData fuel fm fields ept v find = Ok (ofs, rows) ->
  ofs = out_fields fm fields ept /\
  exists bs, tiles (fam_first (dump_family (vIpType v))) bs (fam_end (dump_family (vIpType v))) /\
    Forall2 (row_at find (exported fm ept ofs)) rows bs /\
    Forall (fun r => length (nIP (cidr r)) = fam_len (dump_family (vIpType v))) rows.
Proof.
  intros fuel fm fields ept v find ofs rows N HF H. destruct (first_ip_ok v) as [V [E Hfam]]. set (fam := dump_family (vIpType v)) in *.
  pose proof (starts_first find (row_values fm ept (out_fields fm fields ept)) fam Hfam HF _ V E) as S. unfold BuildIPData in H.
  change (if IsIpV6 v then IPv6zero else IPv4zero) with (first_ip v) in H.
  destruct (build_loop _ _ _ _) as [rows'| | |] eqn:B; cbn [bind] in H; try discriminate. injection H as <- ->.
  split; [reflexivity|]. destruct (build_ok_tiles find _ fam Hfam HF fuel _ _ V S B) as [bs [F2 T]].
  exists bs. split; [rewrite <- E; exact T|]. split.
  - clear - F2 N. induction F2 as [|r b rows bs H _ IH]; constructor; [|assumption].
    destruct H as [H1 [_ [ip [rec [H2 [H3 [H4 H5]]]]]]]. split; [assumption|]. exists ip, rec. repeat split; try assumption.
    destruct (row_values_exported fm ept fields rec N) as [vs [Q X]]. rewrite Q in H5. injection H5 as <-. assumption.
  - clear - F2. induction F2 as [|r b rows bs H _ IH]; constructor; [|assumption]. apply H.
Qed.
Print Assumptions C19_success_covers.

(** A two-network finder for IPv4. *)
Definition case_find (ip : bytes) : res (IPNet * list (bytes * bytes)) :=
  let a := to4 ip in
  Ok (IpNet a 1, [(str "country_name", if (b2n (nth 0 a x00) <? 128)%N then str "A" else str "B")]).
Example C19_case : finder_ok fam4 case_find /\ finder_total fam4 case_find /\
  BuildIPData 5 CommonFieldsMap [str "country_name"] None (mkVersion 1 0 0 [] [] []) case_find =
  Ok ([str "country"], [mkRaw (mkNet [x00;x00;x00;x00] [x80;x00;x00;x00]) [str "A"];
                        mkRaw (mkNet [x80;x00;x00;x00] [x80;x00;x00;x00]) [str "B"]]).
Proof.
  assert (forall ip, valid_ip ip -> v4base <= addr ip < v4base + 2 ^ 32 ->
    length (to4 ip) = 4%nat /\ valid_ip (to4 ip) /\ addr (to4 ip) = addr ip /\
    net_is (IpNet (to4 ip) 1) (mkBlock (addr ip / 2 ^ 31 * 2 ^ 31) 31) /\ length (nIP (IpNet (to4 ip) 1)) = 4%nat) as G.
  { intros ip V R.
    assert (to4 ip <> []) as Ne.
    { apply is_nil_false. rewrite is_nil_to4 by assumption. unfold v4b. apply negb_false_iff, andb_true_iff.
      split; [apply N.leb_le|apply N.ltb_lt]; apply R. }
    pose proof (to4_length _ Ne) as L. destruct (proj2 (to4_spec ip V) Ne) as [_ Ea].
    assert (valid_ip (to4 ip)) as V4 by (left; assumption).
    assert (to4 (to4 ip) = to4 ip) as T4 by (unfold to4 at 1; rewrite L; reflexivity).
    assert (is_nil (to4 (to4 ip)) = false) as T4' by (rewrite T4; apply is_nil_false; assumption).
    destruct (IpNet_spec (to4 ip) 1 V4) as [k [Ek Hn]]; [rewrite T4'; lia|]. rewrite T4' in Ek.
    assert (k = 31) as -> by lia. rewrite Ea in Hn. change (Z.of_nat 1) with 1%Z in Hn.
    split; [assumption|]. split; [assumption|]. split; [assumption|]. split; [assumption|].
    rewrite <- (ni_mask_len _ _ Hn). unfold IpNet. rewrite T4', T4. cbn [nMask]. rewrite L. reflexivity. }
  split; [constructor|split].
  - intros ip n rec V R F. destruct (G ip V R) as [_ [_ [_ [Hn Ln]]]]. injection F as <- _.
    split; [assumption|]. eexists. split; [eassumption|]. split; [apply floor_aligned|apply floor_in].
  - intros ip ip' n n' rec rec' b b' a V V' R R' F F' Hn Hn' B B'.
    destruct (G ip V R) as [_ [_ [_ [H1 L1]]]]. destruct (G ip' V' R') as [_ [_ [_ [H2 L2]]]].
    injection F as <- _. injection F' as <- _.
    rewrite (net_is_fun _ _ _ Hn H1) in B. rewrite (net_is_fun _ _ _ Hn' H2) in B'.
    apply in_block_floor in B. apply in_block_floor in B'. rewrite B in B'. rewrite <- B' in H2.
    destruct H1 as [A1 A2 A3 A4 A5], H2 as [C1 C2 C3 C4 C5]. cbn [base logsz] in *.
    destruct (IpNet (to4 ip) 1) as [i1 m1], (IpNet (to4 ip') 1) as [i2 m2]. cbn [nIP nMask] in *. rewrite L1, L2 in *. f_equal.
    + apply addr_inj; [congruence|assumption|congruence].
    + apply val_inj; congruence.
  - intros ip V R. eexists _, _. reflexivity.
  - vm_compute. reflexivity.
Qed.

(* ------------------------------------------------------------------ *)
(** C20 *)
Lemma asked_visits {find : bytes -> res (IPNet * list (bytes * bytes))} values first m :
  (forall info, exists vs, values info = Ok vs) -> asked find first m -> visits find values first m.
Proof.
  intros HV. induction 1 as [|m n rec b next A IH F Hn Ha Lt Ln En]; [constructor|].
  destruct (HV rec) as [vs Hvs]. destruct (LastIP_aligned n b Hn Ha) as [last [E1 [E2 E3]]].
  pose proof (ni_len _ _ Hn) as V. assert (valid_ip last) as Vl by (unfold valid_ip in *; rewrite E2; assumption).
  pose proof (addr_val last Vl) as A1. pose proof (addr_val _ V) as A2. pose proof (ni_base _ _ Hn) as A3. pose proof (pow_pos (logsz b)) as P.
  rewrite E2 in A1.
  assert (~ all_ones last) as No.
  { unfold all_ones. rewrite E2. destruct V as [V|V]; rewrite V in *; cbn [Nat.eqb] in *; alia. }
  eapply v_next with (last := last); [exact IH|exact F|exact Hvs|exact E1| |].
  - unfold IsAllMask. destruct (all_ff last) eqn:Q; [|reflexivity]. apply all_ff_ones in Q. contradiction.
  - unfold NextStart. rewrite E1. cbn [bind]. f_equal. apply addr_inj.
    + rewrite NextIP_length. congruence.
    + apply NextIP_valid. assumption.
    + rewrite NextIP_addr by assumption. rewrite E3, En. alia.
Qed.

(** C20: an error at any address asked for is the result of the dump. *)
Theorem C20_error_is_returned : forall fm fields ept v find m e, NoDup (map fst fm) ->
  asked find (first_ip v) m -> find m = Err e ->
  exists fuel0, forall fuel, (fuel0 <= fuel)%nat -> BuildIPData fuel fm fields ept v find = Err e.
Proof.
  intros fm fields ept v find m e N A E.
  assert (forall info, exists vs, row_values fm ept (out_fields fm fields ept) info = Ok vs) as HV.
  { intros info. destruct (row_values_exported fm ept fields info N) as [vs [Q _]]. eauto. }
  destruct (visits_err find _ _ m e (asked_visits _ _ _ HV A) E) as [fuel0 H]. exists fuel0. intros fuel L.
  unfold BuildIPData. change (if IsIpV6 v then IPv6zero else IPv4zero) with (first_ip v). rewrite H by assumption. reflexivity.
Qed.
Print Assumptions C20_error_is_returned.

(** C20: rows are only returned when no address asked for was an error. *)
Theorem C20_rows_only_without_error : forall fuel fm fields ept v find res m, NoDup (map fst fm) ->
  BuildIPData fuel fm fields ept v find = Ok res -> asked find (first_ip v) m -> exists n rec, find m = Ok (n, rec).
Proof.
  intros fuel fm fields ept v find res m N H A. unfold BuildIPData in H.
  change (if IsIpV6 v then IPv6zero else IPv4zero) with (first_ip v) in H.
  destruct (build_loop _ _ _ _) as [rows'| | |] eqn:B; cbn [bind] in H; try discriminate.
  assert (forall info, exists vs, row_values fm ept (out_fields fm fields ept) info = Ok vs) as HV.
  { intros info. destruct (row_values_exported fm ept fields info N) as [vs [Q _]]. eauto. }
  destruct (build_ok_visits _ _ _ _ _ B m (asked_visits _ _ _ HV A)) as [n [info [vs [last [Q _]]]]]. eauto.
Qed.
Print Assumptions C20_rows_only_without_error.

(** A finder that fails in the second half. *)
Example C20_case : let find ip := if (b2n (nth 0 (to4 ip) x00) <? 128)%N then case_find ip else Err ErrDataNotExists in
  asked find (first_ip (mkVersion 1 0 0 [] [] [])) [x80; x00; x00; x00] /\ find [x80; x00; x00; x00] = Err ErrDataNotExists.
Proof.
  split; [|reflexivity].
  apply asked_next with (m := IPv4zero) (n := mkNet [x00;x00;x00;x00] [x80;x00;x00;x00]) (b := mkBlock v4base 31)
    (rec := [(str "country_name", str "A")]); try reflexivity; [constructor|].
  constructor; [left; reflexivity|reflexivity|cbv; discriminate|reflexivity|reflexivity].
Qed.

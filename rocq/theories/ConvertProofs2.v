(** Lemmas for C57: columns by name, and the shipped tables. *)
From Verif Require Import Base NetIP IpNet Spec IpNetProofs SplitProofs IpNetProofs2 Inf Ipdb SpecIpdb SpecExport Export ExportProofs Bits.
From Verif Require Import TrieProofs WriterProofs ReaderProofs OpenProofs PackProofs PropsIpdb DumpProofs PropsExport PropsDump.
From Verif Require Import Tables Operate SpecOperate OperateProofs OperateProofs2 PropsOperate PropsOperate2 ConvertProofs.
Open Scope nat_scope.

(** The value of the column called f (empty if there is none). *)
Definition fval (f : bytes) (F v : list bytes) : bytes :=
  match offset_of f F with Some i => nth i v [] | None => [] end.
Lemma offset_of_none k l : offset_of k l = None -> ~ In k l.
Proof. intros E I. destruct (offset_of_in _ _ I) as [i Q]. congruence. Qed.
Lemma NoDup_nth F i j (f : bytes) : NoDup F -> nth_error F i = Some f -> nth_error F j = Some f -> i = j.
Proof.
  intros N Hi Hj. apply (proj1 (NoDup_nth_error F) N); [|congruence]. apply nth_error_Some. congruence.
Qed.
Lemma offset_of_at F i (f : bytes) : NoDup F -> nth_error F i = Some f -> offset_of f F = Some i.
Proof.
  intros N Hi. destruct (offset_of_in f F) as [j Ej]; [eapply nth_error_In; eassumption|].
  rewrite Ej. f_equal. apply offset_of_nth in Ej. eapply NoDup_nth; eassumption.
Qed.
Lemma fval_at F i f v : NoDup F -> nth_error F i = Some f -> fval f F v = nth i v [].
Proof. intros N Hi. unfold fval. rewrite (offset_of_at _ _ _ N Hi). reflexivity. Qed.
Lemma fval_absent F f v : ~ In f F -> fval f F v = [].
Proof.
  intros N. unfold fval. destruct (offset_of f F) as [i|] eqn:E; [|reflexivity].
  apply offset_of_nth in E. exfalso. apply N. eapply nth_error_In. eassumption.
Qed.
Lemma fval_map F v : NoDup F -> length v = length F -> v = map (fun f => fval f F v) F.
Proof.
  intros N L. apply nth_ext with (d := []) (d' := []); [rewrite map_length; assumption|].
  intros i Hi. rewrite L in Hi. destruct (nth_error F i) as [f|] eqn:E; [|apply nth_error_None in E; lia].
  rewrite (nth_indep (map (fun f => fval f F v) F) [] (fval [] F v)) by (rewrite map_length; assumption).
  rewrite (map_nth (fun f => fval f F v)). rewrite (nth_error_nth _ _ _ E). symmetry. apply fval_at; assumption.
Qed.
Lemma fval_with_col F p g f v x : NoDup F -> nth_error F p = Some g -> p < length v ->
  fval f F (with_col v p x) = if bytes_eqb f g then x else fval f F v.
Proof.
  intros N Hp L. rewrite <- upd_with_col by assumption. destruct (bytes_eqb_spec f g) as [->|Ne].
  - rewrite (fval_at F p g) by assumption. apply nth_upd_eq. assumption.
  - unfold fval. destruct (offset_of f F) as [i|] eqn:E; [|reflexivity]. apply offset_of_nth in E.
    apply nth_upd_ne. intros ->. congruence.
Qed.
Lemma offset_of_app f F g : offset_of f (F ++ [g]) =
  match offset_of f F with Some i => Some i | None => if bytes_eqb g f then Some (length F) else None end.
Proof.
  induction F as [|y F IH]; [reflexivity|]. cbn [app offset_of length]. destruct (bytes_eqb y f); [reflexivity|].
  rewrite IH. destruct (offset_of f F); [reflexivity|]. destruct (bytes_eqb g f); reflexivity.
Qed.
Lemma fval_snoc F g f v x : ~ In g F -> length v = length F ->
  fval f (F ++ [g]) (v ++ [x]) = if bytes_eqb f g then x else fval f F v.
Proof.
  intros Ng L. unfold fval. rewrite offset_of_app. destruct (offset_of f F) as [i|] eqn:E.
  - pose proof (offset_of_nth _ _ _ E) as E'. assert (i < length F) by (apply nth_error_Some; congruence).
    destruct (bytes_eqb_spec f g) as [->|_]; [exfalso; apply Ng; eapply nth_error_In; eassumption|].
    rewrite app_nth1 by lia. reflexivity.
  - destruct (bytes_eqb_spec f g) as [->|Ne].
    + rewrite bytes_eqb_refl. rewrite app_nth2, L, Nat.sub_diag by lia. reflexivity.
    + destruct (bytes_eqb_spec g f); [congruence|reflexivity].
Qed.

(** The columns a dump can have. *)
Definition common_only (F : list bytes) : Prop := forall f, In f F -> exists g, In (f, g) CommonFieldsMap.
Lemma dump_common r : common_only (dump_fields r).
Proof. intros f I. apply ExtKeys_common in I as (g & I & _). eauto. Qed.

Definition fval_info (F v : list bytes) : IpInfo :=
  mkInfo (fval (str "country") F v) (fval (str "district") F v) (fval (str "province") F v) (fval (str "city") F v)
         (fval (str "asn") F v) (fval (str "isp") F v) (fval (str "continent") F v) (fval (str "line") F v).
Definition shown_info (F v : list bytes) : IpInfo :=
  mkInfo (fval (str "country") F v) (fval (str "district") F v) (fval (str "province") F v) (fval (str "city") F v)
         (fval (str "asn") F v) (fval (str "isp") F v) (continent_name (fval (str "continent") F v)) (fval (str "line") F v).
Lemma show_continent_once F (fv : bytes -> bytes) : NoDup F ->
  (forall x, In x F -> in_array x [str "continent"; str "continent_code"] = true -> x = str "continent") ->
  show_continent F (map fv F) = map (fun f => if bytes_eqb f (str "continent") then continent_name (fv f) else fv f) F.
Proof.
  intros N H. induction F as [|f F IH]; [reflexivity|]. inversion N as [|? ? Nf N']; subst. cbn [map show_continent].
  destruct (in_array f [str "continent"; str "continent_code"]) eqn:E.
  - rewrite (H f (or_introl eq_refl) E) in *. rewrite bytes_eqb_refl. f_equal. apply map_ext_in. intros x Ix.
    destruct (bytes_eqb_spec x (str "continent")) as [->|_]; [contradiction|reflexivity].
  - destruct (bytes_eqb_spec f (str "continent")) as [->|_]; [discriminate E|]. f_equal. apply IH; [assumption|]. intros x Ix. apply H. right. assumption.
Qed.
Lemma info_shown F v : NoDup F -> length v = length F -> common_only F -> row_info F v = shown_info F v.
Proof.
  intros N L Cm. unfold row_info. cbv zeta.
  set (fv := fun f => if bytes_eqb f (str "continent") then continent_name (fval f F v) else fval f F v).
  assert (forall f g x, In (f, g) CommonFieldsMap -> In x F -> in_array x [f; g] = true -> x = f) as Nm.
  { intros f g x I Ix Hx. destruct (Cm x Ix) as [g' Ig]. apply (common_name f g x g' I Ig Hx). }
  assert (show_continent F v = map fv F) as ->.
  { rewrite (fval_map F v N L) at 1. apply (show_continent_once F (fun f => fval f F v) N). intros x Ix Hx.
    apply (Nm fContinent FieldContinentCode x); [in_common|assumption|exact Hx]. }
  unfold shown_info.
  assert (forall f g, In (f, g) CommonFieldsMap -> forall names, (forall x, in_array x names = in_array x [f; g]) ->
     column names F (map fv F) = fv f) as C.
  { intros f g I names Hn. apply column_const.
    - intros x Ix Hx. rewrite Hn in Hx. rewrite (Nm f g x I Ix Hx). reflexivity.
    - intros Q. unfold fv. rewrite fval_absent; [destruct (bytes_eqb f (str "continent")); reflexivity|].
      intros If. specialize (Q f If). rewrite Hn in Q. cbn in Q. rewrite bytes_eqb_refl in Q. discriminate. }
  change (continent_name (fval (str "continent") F v)) with (fv (str "continent")).
  change (fval (str "country") F v) with (fv (str "country")). change (fval (str "district") F v) with (fv (str "district")).
  change (fval (str "province") F v) with (fv (str "province")). change (fval (str "city") F v) with (fv (str "city")).
  change (fval (str "asn") F v) with (fv (str "asn")). change (fval (str "isp") F v) with (fv (str "isp")).
  change (fval (str "line") F v) with (fv (str "line")).
  f_equal; (eapply C; [in_common|intros x; unfold in_array; cbn [existsb]; try reflexivity; rewrite ?orb_false_r, ?orb_diag; reflexivity]).
Qed.
Lemma info_fval F v : NoDup F -> length v = length F -> common_only F ->
  continent_name (fval (str "continent") F v) = fval (str "continent") F v -> row_info F v = fval_info F v.
Proof. intros N L Cm Hc. rewrite info_shown by assumption. unfold shown_info, fval_info. rewrite Hc. reflexivity. Qed.

(* ---------- the shipped tables ---------- *)
Definition no_tabb (s : bytes) : bool := forallb (fun c => negb (byte_eqb c x09)) s.
Lemma no_tabb_ok s : no_tabb s = true -> no_byte x09 s.
Proof.
  intros H I. unfold no_tabb in H. rewrite forallb_forall in H. specialize (H _ I).
  destruct (byte_eqb_spec x09 x09); [discriminate H|congruence].
Qed.
Definition clean_table (text : bytes) : bool := forallb (fun kv => no_tabb (snd kv) && negb (is_nil (fst kv))) (parseData text).
Lemma tables_clean : clean_table CityList && clean_table ProvinceList && clean_table ISPList = true.
Proof. vm_compute. reflexivity. Qed.
Lemma shipped_clean f text : shipped_table f = Some text -> tidy text = true /\ clean_table text = true.
Proof.
  pose proof tables_tidy as T. apply andb_true_iff in T as [T T3]. apply andb_true_iff in T as [T1 T2].
  pose proof tables_clean as U. apply andb_true_iff in U as [U U3]. apply andb_true_iff in U as [U1 U2].
  assert (forall x y : bytes, Some x = Some y -> x = y) as Inj by (intros x y E; congruence).
  intros Et. unfold shipped_table in Et.
  destruct (bytes_eqb f (str "city")); [apply Inj in Et; subst text; auto|].
  destruct (bytes_eqb f (str "province")); [apply Inj in Et; subst text; auto|].
  destruct (bytes_eqb f (str "isp")); [apply Inj in Et; subst text; auto|discriminate Et].
Qed.
Lemma has_line_clean f text v w : shipped_table f = Some text -> has_line text v w -> v <> [] /\ no_byte x09 w.
Proof.
  intros Et H. destruct (shipped_clean f text Et) as [T C]. apply (parseData_In text v w T) in H.
  unfold clean_table in C. rewrite forallb_forall in C. specialize (C _ H). cbn [fst snd] in C.
  apply andb_true_iff in C as [C1 C2]. split; [intros ->; discriminate C2|apply no_tabb_ok; assumption].
Qed.
Lemma normal_name_empty f : normal_name f [] [].
Proof.
  unfold normal_name. destruct (shipped_table f) as [text|] eqn:E; [|reflexivity]. right. split; [reflexivity|].
  intros u H. apply (has_line_clean f text) in H; [|assumption]. destruct H. congruence.
Qed.
Lemma normal_name_tab f v w : normal_name f v w -> no_byte x09 v -> no_byte x09 w.
Proof.
  unfold normal_name. destruct (shipped_table f) as [text|] eqn:E; [|intros ->; auto].
  intros [H|[-> _]] Hv; [|assumption]. apply (has_line_clean f text) in H; [tauto|assumption].
Qed.
Lemma district_tab p x : has_district p x -> no_byte x09 x.
Proof.
  intros [H|[-> _]]; [|intros []]. apply no_tabb_ok.
  assert (forallb (fun kv => no_tabb (snd kv)) provinceDistrict = true) as C by (vm_compute; reflexivity).
  rewrite forallb_forall in C. apply (C _ H).
Qed.
Lemma operator_tab x : main_operator x -> no_byte x09 x.
Proof. intros H. apply no_tabb_ok. destruct H as [<-|[<-|[<-|[<-|[]]]]]; vm_compute; reflexivity. Qed.

(* ---------- legality after ReplaceShortage ---------- *)
Lemma replace_cells_len tab s n : forall h i, length (replace_cells tab h s i n) = length h /\
  forall a, length (arr (replace_cells tab h s i n) a) = length (arr h a).
Proof.
  induction n as [|n IH]; intros h i; cbn [replace_cells]; [auto|].
  set (h1 := match tab i with Some m => _ | None => h end).
  destruct (IH h1 (S i)) as [A B].
  assert (length h1 = length h /\ forall a, length (arr h1 a) = length (arr h a)) as [C D].
  { unfold h1. destruct (tab i) as [m|]; [|auto]. destruct (assoc _ m) as [w|]; [|auto].
    split; [apply hset_length|]. intros a. rewrite arr_hset. destruct (a =? sArr s) eqn:Ea; [|reflexivity].
    apply Nat.eqb_eq in Ea. subst a. apply upd_length. }
  split; [lia|]. intros a. rewrite B. apply D.
Qed.
Lemma ReplaceShortage_legal tabs d : legal d -> legal (ReplaceShortage tabs d).
Proof.
  unfold legal, ReplaceShortage. cbn [hRows hHeap]. intros L.
  set (h' := fold_left _ _ _).
  assert (length h' = length (hHeap d) /\ forall a, length (arr h' a) = length (arr (hHeap d) a)) as [A B].
  { unfold h'. clear L h'. generalize (hHeap d) as h. induction (hRows d) as [|r rows IH]; intros h; cbn [fold_left]; [auto|].
    destruct (IH (replace_cells (table_at tabs (hFields d)) h (snd r) 0 (sLen (snd r)))) as [A B].
    destruct (replace_cells_len (table_at tabs (hFields d)) (snd r) (sLen (snd r)) h 0) as [C D].
    split; [lia|]. intros a. rewrite B. apply D. }
  eapply Forall_impl; [|exact L]. intros r [H1 H2]. split; [lia|]. rewrite B. assumption.
Qed.

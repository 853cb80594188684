(** C78: what reading a .scan file reserves. *)
From Verif Require Import Base NetIP NetText Spec IpNetProofs NetTextProofs Inf Export Operate SpecOperate Plain SpecText PlainProofs Json SpecForeign JsonProofs SpecJson PropsJson MemipProofs PropsPlain Reserve.

(* ---------- specification ---------- *)
(** One more than the count, in 32 bits. *)
Definition one_more (c r : N) : Prop := (c + 1 < 2 ^ 32 /\ r = c + 1)%N \/ (c = 2 ^ 32 - 1 /\ r = 0)%N.
Definition text_of (lines : list bytes) : bytes := flat_map (fun l => l ++ [x0a]) lines.
Definition plain_line (l : bytes) : Prop := one_line l /\ short l.

(* ---------- proofs ---------- *)
Lemma count_cap_spec v : (vCount v < 2 ^ 32)%N -> one_more (vCount v) (count_cap v).
Proof.
  intros L. unfold one_more, count_cap. destruct (N.lt_ge_cases (vCount v + 1) (2 ^ 32)) as [H|H].
  - left. split; [assumption|]. apply N.mod_small. assumption.
  - right. assert (vCount v = 2 ^ 32 - 1)%N as -> by lia. split; reflexivity.
Qed.
Lemma scan_text ls : Forall plain_line ls -> scan_lines (text_of ls) = ls.
Proof.
  intros F. apply scan_unlines; (eapply Forall_impl; [|exact F]); unfold plain_line, one_line, short; intros l [[A B] C]; (assumption || lia).
Qed.
Lemma drop5_app p j : length p = 5 -> drop5 (p ++ j) = Ok j.
Proof.
  intros L. unfold drop5. rewrite app_length. destruct (Nat.ltb_spec (length p + length j) 5); [lia|].
  rewrite skipn_app, <- L, skipn_all, Nat.sub_diag. reflexivity.
Qed.

(** C78: a header decides alone: after a title, the version (a 5-byte prefix and its text)
    and the columns, one more than the Count of the version is reserved for lines and again
    for rows; without columns, for rows only. *)
Theorem C78_reserved : forall unmarshal l0 p j v p2 c rows,
  Forall plain_line (l0 :: (p ++ j) :: (p2 ++ c) :: rows) ->
  length p = 5 -> length p2 = 5 -> unmarshal j = Some (Some v) -> (vCount v < 2 ^ 32)%N ->
  exists r, one_more (vCount v) r /\
    reserves unmarshal (text_of (l0 :: (p ++ j) :: (p2 ++ c) :: rows)) = [r; r] /\
    reserves unmarshal (text_of [l0; p ++ j]) = [r].
Proof.
  intros unmarshal l0 p j v p2 c rows F Lp Lp2 J L. exists (count_cap v). split; [apply count_cap_spec; assumption|].
  unfold reserves, line_cap, row_cap, newDumper. rewrite (scan_text _ F).
  assert (F2 : Forall plain_line [l0; p ++ j]) by (inversion F as [|? ? A B]; inversion B; repeat constructor; (apply A || assumption || tauto || idtac); match goal with H : plain_line (p ++ j) |- _ => apply H end).
  rewrite (scan_text _ F2). rewrite !drop5_app by assumption. cbn [bind]. rewrite J. rewrite ?drop5_app by assumption. split; reflexivity.
Qed.
Print Assumptions C78_reserved.

(** C78: the rows do not count. *)
Theorem C78_rows_do_not_count : forall unmarshal l0 l1 l2 rows rows',
  Forall plain_line (l0 :: l1 :: l2 :: rows) -> Forall plain_line rows' ->
  reserves unmarshal (text_of (l0 :: l1 :: l2 :: rows)) = reserves unmarshal (text_of (l0 :: l1 :: l2 :: rows')).
Proof.
  intros unmarshal l0 l1 l2 rows rows' F F'.
  assert (G : Forall plain_line (l0 :: l1 :: l2 :: rows')).
  { inversion F as [|? ? A B]; subst. inversion B as [|? ? A' B']; subst. inversion B'; subst. repeat constructor; try assumption; (apply A || apply A' || idtac); match goal with H : plain_line l2 |- _ => apply H end. }
  unfold reserves, line_cap, row_cap, newDumper. rewrite (scan_text _ F), (scan_text _ G).
  destruct (drop5 l1) as [j| | |]; try reflexivity.
  cbn [bind]. destruct (unmarshal j) as [[v|]|]; destruct (drop5 l2); reflexivity.
Qed.
Print Assumptions C78_rows_do_not_count.

(** C78: never more than 32 bits say. *)
Theorem C78_bounded : forall unmarshal data, Forall (fun r => (r < 2 ^ 32)%N) (reserves unmarshal data) /\ length (reserves unmarshal data) <= 2.
Proof.
  intros unmarshal data. assert (B : forall v, (count_cap v < 2 ^ 32)%N) by (intros; apply N.mod_lt; lia).
  unfold reserves, line_cap, row_cap. rewrite Forall_app, app_length.
  assert (A : Forall (fun r => (r < 2 ^ 32)%N) (match newDumper unmarshal data with Ok t => match tVersion t with Some v => [count_cap v] | None => [] end | _ => [] end) /\
    length (match newDumper unmarshal data with Ok t => match tVersion t with Some v => [count_cap v] | None => [] end | _ => [] end) <= 1).
  { destruct (newDumper unmarshal data) as [t| | |]; [destruct (tVersion t)|..]; cbn [length]; repeat constructor; apply B. }
  destruct A as [A1 A2].
  destruct (scan_lines data) as [|l0 [|l1 [|l2 r]]]; cbn [length]; try (repeat split; [constructor|assumption|lia]).
  destruct (drop5 l1) as [j| | |]; destruct (drop5 l2); try (destruct (unmarshal j) as [[v|]|]); cbn [length];
    (split; [split; [repeat constructor; apply B|assumption]|lia]).
Qed.
Print Assumptions C78_bounded.

(** C78: a file packed from a dataset reserves one more than the Count of its version says. *)
Theorem C78_packed : forall marshal unmarshal clock d bs,
  legal d -> scannable marshal unmarshal clock (contents d) bs -> (vCount (hVersion d) < 2 ^ 32)%N ->
  exists r, one_more (vCount (hVersion d)) r /\ reserves unmarshal (fst (Plain.pack marshal clock d)) = [r; r].
Proof.
  intros marshal unmarshal clock d bs Lg S L. exists (count_cap (hVersion d)). split; [apply count_cap_spec; assumption|].
  unfold reserves, row_cap. rewrite (newDumper_packed _ _ _ _ _ Lg S). cbn [tVersion].
  unfold line_cap. rewrite pack_lines by assumption.
  change (hVersion d) with (dVersion (contents d)). change (hFields d) with (dFields (contents d)).
  rewrite (scannable_lines _ _ _ _ _ S).
  rewrite !(drop5_app (str "#### ")) by reflexivity. rewrite (sc_json _ _ _ _ _ S). reflexivity.
Qed.
Print Assumptions C78_packed.

(** C78 (finding): for every count below 2^32 there is a file of at most 200 bytes without
    a single row, read as an empty dataset, for which that many entries and one are
    reserved twice. *)
Definition empty_set (n : N) : HData := mkH [str "city"] (mkVersion 1 n 0 [] [] []) [] [].
Lemma empty_scannable n : (n < 2 ^ 32)%N -> version_fits (hVersion (empty_set n)) ->
  short (marshal_version false false (hVersion (empty_set n))) ->
  scannable (marshal_version false false) unmarshal_version (str "x") (contents (empty_set n)) [].
Proof.
  intros L V S. apply C54_scannable; try assumption.
  - split; [apply one_line_lit; reflexivity|reflexivity].
  - split; [discriminate|]. split; [|reflexivity]. constructor; [|constructor]. split; [apply lit_no; reflexivity|apply one_line_lit; reflexivity].
  - constructor.
  - constructor.
Qed.
Lemma empty_fits n : (n < 2 ^ 32)%N -> version_fits (hVersion (empty_set n)).
Proof.
  intros L. constructor; cbn [empty_set hVersion vIpType vCount vBuild vVersion vLanguages vExtra]; try (unfold int64; lia); try ascii; constructor.
Qed.
Lemma empty_length n : (n < 2 ^ 32)%N -> length (marshal_version false false (hVersion (empty_set n))) <= 100.
Proof.
  intros L. pose proof (dec_length32 n L) as D.
  assert (E : marshal_version false false (hVersion (empty_set n)) =
    str "{""IpType"":1,""Count"":" ++ dec n ++ str ",""Build"":0,""Version"":"""",""Languages"":[],""ExtraInfo"":[]}").
  { unfold marshal_version, version_json. cbn [empty_set hVersion vCount vIpType vBuild vVersion vLanguages vExtra jstrs]. unfold jint, dec_int.
    destruct (Z.ltb_spec (Z.of_N n) 0); [lia|]. rewrite Zabs2N.id || rewrite N2Z.id. generalize (dec n). intros t. cbn. rewrite <- ?app_assoc. reflexivity. }
  rewrite E, !app_length. cbn [length str list_byte_of_string]. vm_compute (length (str "{""IpType"":1,""Count"":")). vm_compute (length (str ",""Build"":0,""Version"":"""",""Languages"":[],""ExtraInfo"":[]}")). lia.
Qed.
Theorem C78_short_files : forall n, (n < 2 ^ 32)%N -> exists data v r,
  length data <= 200 /\ vCount v = n /\
  Plain.dump unmarshal_version data None = Ok (mkData [str "city"] v []) /\
  one_more n r /\ reserves unmarshal_version data = [r; r].
Proof.
  intros n L. set (d := empty_set n).
  assert (Lg : legal d) by constructor.
  assert (V := empty_fits n L). assert (Q := empty_length n L).
  assert (S : scannable (marshal_version false false) unmarshal_version (str "x") (contents d) []).
  { apply empty_scannable; try assumption. unfold short. lia. }
  destruct (C78_packed _ _ _ _ _ Lg S L) as [r [R E]].
  exists (fst (Plain.pack (marshal_version false false) (str "x") d)), (hVersion d), r.
  split; [|split; [reflexivity|split; [|split; [exact R|exact E]]]].
  - rewrite pack_lines by assumption. unfold unlines. cbn [flat_map d empty_set hFields hVersion contents dIps map hRows].
    rewrite !app_length. change (marshal_version false false (mkVersion 1 n 0 [] [] [])) with (marshal_version false false (hVersion (empty_set n))).
    cbn [join]. change (length (str "#### scan dump ")) with 15. change (length (str "x")) with 1. change (length (str " ####")) with 5.
    change (length (str "#### ")) with 5. change (length (str "city")) with 4. cbn [length]. lia.
  - unfold Plain.dump. rewrite (newDumper_packed _ _ _ _ _ Lg S). reflexivity.
Qed.
Print Assumptions C78_short_files.

(** The premises meet a concrete file with a row. *)
Example C78_case : exists j v rows,
  Forall plain_line (str "t" :: (str "#### " ++ j) :: (str "#### " ++ str "city") :: rows) /\ rows <> [] /\
  unmarshal_version j = Some (Some v) /\ vCount v = 4294967295%N /\
  reserves unmarshal_version (text_of (str "t" :: (str "#### " ++ j) :: (str "#### " ++ str "city") :: rows)) = [0; 0]%N.
Proof.
  exists (str "{""Count"":4294967295}"). eexists. exists [str "1.0.0.0/8" ++ x09 :: str "b"].
  split; [repeat (constructor; [split; [apply one_line_lit; reflexivity|reflexivity]|]); constructor|].
  split; [discriminate|]. split; [vm_compute; reflexivity|]. split; vm_compute; reflexivity.
Qed.

(** C55: the body of an answer, whatever bytes the values are.  Statements use SpecJson (which
    texts stand for a JSON value) and [repaired]. *)
From Verif Require Import Base NetIP NetText Spec Inf Ipdb SpecIpdb Json SpecForeign JsonProofs SpecJson.
From Verif Require Import Facade Server PropsServer PropsJson PropsJson2 PropsJson3.
Open Scope nat_scope.

(** The record with its texts repaired. *)
Definition repaired_info (i i' : IpInfo) : Prop :=
  repaired (iCountry i) (iCountry i') /\ repaired (iDistrict i) (iDistrict i') /\ repaired (iProvince i) (iProvince i') /\
  repaired (iCity i) (iCity i') /\ repaired (iAsn i) (iAsn i') /\ repaired (iIsp i) (iIsp i') /\
  repaired (iContinent i) (iContinent i') /\ repaired (iLine i) (iLine i').
(** The JSON object with exactly the members that are not empty. *)
Definition info_object (i : IpInfo) : json :=
  JObj (map (fun kv => (fst kv, JStr (snd kv)))
         (filter (fun kv => negb (match snd kv with [] => true | _ => false end))
            [ (str "country", iCountry i); (str "district", iDistrict i); (str "province", iProvince i); (str "city", iCity i);
              (str "asn", iAsn i); (str "isp", iIsp i); (str "continent", iContinent i); (str "line", iLine i) ])).

Lemma repaired_nil s t : repaired s t -> (s = [] <-> t = []).
Proof.
  intros H. destruct H as [|c s t S H|b s t B H].
  - tauto.
  - destruct (utf8_enc_ne c) as (b & u & ->). split; discriminate.
  - split; discriminate.
Qed.
Lemma opt_text k s t : Forall (fun b => (b2n b < 0x80)%N) k -> repaired s t ->
  Forall2 (fun kv' kv => str_text (fst kv') (enc_str (fst kv)) /\ writes (snd kv') (enc (snd kv))) (opt_member k t) (opt_member k s).
Proof.
  intros K R. pose proof (repaired_nil s t R) as N. unfold opt_member, is_nil. destruct s as [|b s].
  - destruct N as [N _]. rewrite (N eq_refl). constructor.
  - destruct t as [|b' t]; [destruct N as [_ N]; discriminate (N eq_refl)|].
    constructor; [|constructor]. cbn [fst snd]. split; [apply enc_str_text, ascii_repaired, K|apply w_str, enc_str_text, R].
Qed.
Lemma info_text i i' : repaired_info i i' -> writes (info_object i') (marshal_info i).
Proof.
  intros (R1 & R2 & R3 & R4 & R5 & R6 & R7 & R8).
  assert (E : info_json i' = info_object i').
  { unfold info_json, info_object, opt_member, is_nil. destruct i' as [a b c d e f g h].
    cbn [iCountry iDistrict iProvince iCity iAsn iIsp iContinent iLine filter snd].
    destruct a, b, c, d, e, f, g, h; reflexivity. }
  rewrite <- E. unfold marshal_info, info_json. apply obj_enc.
  repeat apply Forall2_app; (apply opt_text; [vm_compute; repeat constructor|assumption]).
Qed.

(** C55: when the query answers, the body is a JSON text (RFC 8259) of the object with exactly the
    record's non-empty members, each repaired where it is not UTF-8 (C54_repaired: a UTF-8 text is
    its own repaired form). *)
Theorem C55_any_bytes : forall nl ne q ip i m i', valid_ip ip -> DbQuery q ip = Ok (Some i, m, None) -> repaired_info i i' ->
  exists body, http_get nl ne q (x2f :: ip_string ip) = Ok (200%Z, body) /\ writes (info_object i') body.
Proof.
  intros nl ne q ip i m i' V H R. destruct (C55_address nl ne q ip V) as (A & _ & _). destruct (A i m H) as [E _].
  exists (marshal_info i). split; [exact E|now apply info_text].
Qed.
Print Assumptions C55_any_bytes.
(** Every record has exactly one repaired form. *)
Theorem C55_any_bytes_exists : forall i, exists i', repaired_info i i' /\ forall i'', repaired_info i i'' -> i'' = i'.
Proof.
  intros [a b c d e f g h].
  destruct (C54_repaired a) as (a' & A1 & _ & A2 & _). destruct (C54_repaired b) as (b' & B1 & _ & B2 & _).
  destruct (C54_repaired c) as (c' & C1 & _ & C2 & _). destruct (C54_repaired d) as (d' & D1 & _ & D2 & _).
  destruct (C54_repaired e) as (e' & E1 & _ & E2 & _). destruct (C54_repaired f) as (f' & F1 & _ & F2 & _).
  destruct (C54_repaired g) as (g' & G1 & _ & G2 & _). destruct (C54_repaired h) as (h' & H1 & _ & H2 & _).
  exists (mkInfo a' b' c' d' e' f' g' h'). split; [now repeat split|].
  intros [a2 b2 c2 d2 e2 f2 g2 h2] (R1 & R2 & R3 & R4 & R5 & R6 & R7 & R8).
  cbn [iCountry iDistrict iProvince iCity iAsn iIsp iContinent iLine] in *.
  rewrite (A2 a2), (B2 b2), (C2 c2), (D2 d2), (E2 e2), (F2 f2), (G2 g2), (H2 h2) by assumption. reflexivity.
Qed.
Print Assumptions C55_any_bytes_exists.

(** A file whose texts need not be UTF-8: an awdb file with a country in another encoding. *)
From Verif Require Import AwDecode SpecAw SpecAwTree AwTree PropsAwQuery.
Definition gbk_name : bytes := [xd6; xd0; x41].
Definition gbk_data : bytes := encode (VMap [(str "country", VStr gbk_name)]) ++ repeat x00 2000.
Definition gbk_file : bytes := aw_file 1 24 4 (node_bytes 24 (pA 1, pA 1)) gbk_data.
Lemma gbk_repaired : repaired gbk_name [xef; xbf; xbd; xef; xbf; xbd; x41].
Proof.
  assert (B : forall b s, DecodeRune (b :: s) = (RuneError, 1%nat) -> forall c r, scalar c -> b :: s <> utf8_enc c ++ r).
  { intros b s H c r S E. rewrite E, decode_enc in H by assumption. injection H as -> H. discriminate H. }
  apply (rp_byte xd6 [xd0; x41] [xef; xbf; xbd; x41]); [apply B; reflexivity|].
  apply (rp_byte xd0 [x41] [x41]); [apply B; reflexivity|]. apply (rp_char 0x41 [] []); [left; lia|constructor].
Qed.
Example C55_any_bytes_case : exists r i, aw_open gbk_file = Ok r /\ DbQuery (QAwdb r) [x01; x02; x03; x04] = Ok (Some i, 1%nat, None) /\
  iCountry i = gbk_name /\ repaired_info i (mkInfo [xef; xbf; xbd; xef; xbf; xbd; x41] [] [] [] [] [] [] []) /\
  http_get false false (QAwdb r) (str "/1.2.3.4") = Ok (200%Z, str "{""country"":""\ufffd\ufffdA""}").
Proof.
  assert (H : match aw_open gbk_file with
    | Ok r => match DbQuery (QAwdb r) [x01; x02; x03; x04] with
              | Ok (Some i, m, None) => Some (i, m, http_get false false (QAwdb r) (str "/1.2.3.4"))
              | _ => None
              end
    | _ => None
    end = Some (mkInfo gbk_name [] [] [] [] [] [] [], 1%nat, Ok (200%Z, str "{""country"":""\ufffd\ufffdA""}"))) by (vm_compute; reflexivity).
  destruct (aw_open gbk_file) as [r| | |]; [|discriminate H..]. exists r.
  destruct (DbQuery (QAwdb r) [x01; x02; x03; x04]) as [[[[i|] m] [e|]]| | |]; try discriminate H.
  assert (i = mkInfo gbk_name [] [] [] [] [] [] [] /\ m = 1%nat /\ http_get false false (QAwdb r) (str "/1.2.3.4") = Ok (200%Z, str "{""country"":""\ufffd\ufffdA""}")) as (-> & -> & G) by (repeat split; congruence).
  eexists. split; [reflexivity|]. split; [reflexivity|]. split; [reflexivity|]. split; [|exact G].
  split; [exact gbk_repaired|]. repeat split; apply rp_nil.
Qed.

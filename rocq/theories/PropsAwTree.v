(** C34-C36, C40, C41, C49-C51: the awdb search tree, lookups, iteration, query and dump.
    Statements use Spec (addresses, networks), SpecAwTree (node tables) and SpecExport. *)
From Coq Require Import Sorting.Sorted.
From Verif Require Import Base NetIP IpNet Spec IpNetProofs SplitProofs IpNetProofs2 Ipdb Export SpecExport BuildProofs Bits AwDecode SpecAw AwDecodeProofs AwTree SpecAwTree AwTreeProofs AwIterProofs.
Open Scope N_scope.
Local Arguments N.of_nat : simpl never.

(** ** C34 *)
(** Left and right of node i are the numbers stored there, for every table. *)
Theorem C34_node_records : forall rs tbl i l r, record_size rs -> Forall (fits rs) tbl ->
  nth_error tbl (N.to_nat i) = Some (l, r) -> i < 2 ^ 60 ->
  let nodes := flat_map (node_bytes rs) tbl in read rs nodes false i = Ok l /\ read rs nodes true i = Ok r.
Proof. intros rs tbl i l r H1 H2 H3 H4 nodes. split; unfold nodes; now rewrite (read_spec rs tbl i l r) by assumption. Qed.
(** The same for a node at any place of any buffer. *)
Theorem C34_node_anywhere : forall (rs l r : N) pre post, record_size rs -> fits rs (l, r) ->
  let nodes := pre ++ node_bytes rs (l, r) ++ post in let o := N.of_nat (length pre) in
  (if rs =? 24 then readLeft24 nodes o else if rs =? 28 then readLeft28 nodes o else readLeft32 nodes o) = Ok l /\
  (if rs =? 24 then readRight24 nodes o else if rs =? 28 then readRight28 nodes o else readRight32 nodes o) = Ok r.
Proof. exact node_read. Qed.
(** A 28-bit node. *)
Example C34_case : node_bytes 28 (0xabcdef1, 0x2345678) = [xbc; xde; xf1; xa2; x34; x56; x78] /\
  record_size 28 /\ fits 28 (0xabcdef1, 0x2345678) /\
  read 28 (flat_map (node_bytes 28) [(1, 2); (0xabcdef1, 0x2345678)]) false 1 = Ok 0xabcdef1 /\
  read 28 (flat_map (node_bytes 28) [(1, 2); (0xabcdef1, 0x2345678)]) true 1 = Ok 0x2345678.
Proof. repeat split; try reflexivity. right; now left. Qed.

(** An opened file is a node table, 16 bytes, the data section and the rest; [reads] says
    that lookups use this table. *)
Theorem C34_open_table : forall data r, FromBytes data = Ok r ->
  aNodeCount (wMeta r) * aRecordSize (wMeta r) < 2 ^ 64 ->
  exists tbl sep rest, reads r tbl /\ length sep = 16%nat /\
    data = flat_map (node_bytes (aRecordSize (wMeta r))) tbl ++ sep ++ wData r ++ rest.
Proof.
  intros data r H Hlt. destruct (FromBytes_reads data r H Hlt) as [tbl R].
  destruct (FromBytes_layout data r H) as (sep & rest & L & E). exists tbl, sep, rest.
  split; [assumption|]. split; [assumption|]. rewrite E at 1. now rewrite (rd_nodes _ _ R).
Qed.

(** ** C35 *)
Lemma canon_own ip c : valid_ip ip -> own_spelling ip c -> canon ip = c.
Proof.
  intros V (Vc & Ac & Lc). destruct (canon_spec ip V) as (Vk & Ak & Lk).
  apply addr_inj; [|assumption|congruence].
  destruct Vc as [Vc|Vc], Vk as [Vk|Vk]; try congruence; exfalso.
  - assert (length (canon ip) = 4%nat) by (apply Lk, Lc, Vc). congruence.
  - assert (length c = 4%nat) by (apply Lc, Lk, Vk). congruence.
Qed.
Lemma start_bits r tbl c j v : reads r tbl -> valid_ip c -> has_v4_nodes r ->
  reach tbl 0 (tree_bits (aIPVersion (wMeta r)) c j) v <-> reach tbl (start r c) (firstn j (bits c)) v.
Proof.
  intros R Vc Hv. unfold tree_bits, start.
  destruct (Nat.eqb_spec (length c) 4) as [E4|E4]; [|rewrite andb_false_r; reflexivity].
  destruct (N.eqb_spec (aIPVersion (wMeta r)) 6) as [E6|E6]; cbn [andb app].
  - destruct (rd_v6 _ _ R E6) as [R6 _]. rewrite (Hv E6) in R6. split; intros H.
    + destruct (reach_split _ _ _ _ _ H) as (n & R1 & R2). now rewrite (reach_fun _ _ _ _ _ R6 R1).
    + exact (reach_app _ _ _ _ _ _ R6 H).
  - now rewrite (rd_v4 _ _ R E6).
Qed.

Lemma lookup_walk r tbl ip c j v : reads r tbl -> has_v4_nodes r -> valid_ip ip -> own_spelling ip c ->
  (length c = 16%nat -> aIPVersion (wMeta r) <> 4) ->
  (j <= 8 * length c)%nat -> reach tbl 0 (tree_bits (aIPVersion (wMeta r)) c j) v ->
    (no_data tbl v -> LookupNetwork r ip = Ok (wnet c j, None)) /\
    (data_at tbl v -> LookupNetwork r ip = let* w := retrieveData r v in Ok (wnet c j, Some w)) /\
    (inner tbl v -> j = (8 * length c)%nat -> exists e, LookupNetwork r ip = Err e).
Proof.
  intros R Hv V Own HV Hj Hr. assert (Own' := Own). destruct Own' as (Vc & Ac & Lc).
  assert (Ec := canon_own ip c V Own). apply (start_bits r tbl c j v R Vc Hv) in Hr.
  assert (HV' : is_v4 (addr ip) \/ aIPVersion (wMeta r) <> 4).
  { destruct Vc as [Vc|Vc]; [left; now apply Lc | right; auto]. }
  destruct (lookup_char r tbl R ip V HV') as (v' & j' & Hj' & Rv' & St' & E). cbv zeta in *. rewrite Ec in *.
  assert (Oc : aw_cidr r c j = wnet c j).
  { apply aw_cidr_wnet; [assumption|assumption|]. intros _ E6. now apply Hv. }
  assert (W : ~ inner tbl v -> j' = j /\ v' = v).
  { intros NI. rewrite bits_length in *. apply (walk_same tbl (start r c) c c j v j' v'); try assumption; try reflexivity; try (rewrite bits_length; assumption). }
  unfold LookupNetwork. rewrite E. split; [|split].
  - intros Nd. destruct W as [-> ->]; [unfold no_data, inner in *; lia|]. unfold no_data in Nd.
    rewrite Nd, N.eqb_refl. cbn [bind]. now rewrite N.eqb_refl, Oc.
  - intros Nd. destruct W as [-> ->]; [unfold data_at, inner in *; lia|]. unfold data_at in Nd.
    destruct (N.eqb_spec v (N.of_nat (length tbl))); [lia|]. destruct (N.ltb_spec (N.of_nat (length tbl)) v); [|lia].
    cbn [bind]. destruct (N.eqb_spec v 0); [lia|]. now rewrite Oc.
  - intros Hin Hf. rewrite bits_length in *.
    assert (v' = v) as ->.
    { destruct St' as [St'|St'].
      - rewrite St', Hf in *. exact (reach_fun _ _ _ _ _ Rv' Hr).
      - rewrite <- (firstn_skipn j' (firstn j (bits c))), firstn_firstn, Nat.min_l in Hr by lia.
        destruct (reach_stop tbl _ _ _ _ _ Rv' St' Hr) as [_ ->]. reflexivity. }
    unfold inner in Hin. destruct (N.eqb_spec v (N.of_nat (length tbl))); [lia|].
    destruct (N.ltb_spec (N.of_nat (length tbl)) v); [lia|]. exists ErrInvalidDb. reflexivity.
Qed.

(** What a lookup answers: the bits of the address lead to exactly one place of the tree. *)
Theorem C35_lookup_walk : forall r tbl ip c j v, reads r tbl -> has_v4_nodes r -> valid_ip ip -> own_spelling ip c ->
  (length c = 16%nat -> aIPVersion (wMeta r) <> 4) ->
  (j <= 8 * length c)%nat -> reach tbl 0 (tree_bits (aIPVersion (wMeta r)) c j) v ->
  exists net b, net_is net b /\ aligned b /\ in_block b (addr ip) /\
    length (nIP net) = length c /\ logsz b = 8 * N.of_nat (length c) - N.of_nat j /\
    (no_data tbl v -> LookupNetwork r ip = Ok (net, None)) /\
    (data_at tbl v -> LookupNetwork r ip = let* w := retrieveData r v in Ok (net, Some w)) /\
    (inner tbl v -> j = (8 * length c)%nat -> exists e, LookupNetwork r ip = Err e).
Proof.
  intros r tbl ip c j v R Hv V Own HV Hj Hr. assert (Own' := Own). destruct Own' as (Vc & Ac & Lc).
  exists (wnet c j), (mkBlock ((if (length c =? 4)%nat then v4base else 0) + val c / 2 ^ (8 * N.of_nat (length c) - N.of_nat j) * 2 ^ (8 * N.of_nat (length c) - N.of_nat j)) (8 * N.of_nat (length c) - N.of_nat j)).
  split; [now apply wnet_is|]. split; [now apply wnet_aligned|].
  split; [rewrite <- Ac, addr_val by assumption; now apply wnet_in|].
  split; [unfold wnet; cbn [nIP]; apply be_enc_length|]. split; [reflexivity|].
  now apply (lookup_walk r tbl ip c j v).
Qed.
(** The walk ends within the address: such a j always exists. *)
Theorem C35_walk_total : forall r tbl ip c, reads r tbl -> has_v4_nodes r -> valid_ip ip -> own_spelling ip c ->
  exists j v, (j <= 8 * length c)%nat /\ reach tbl 0 (tree_bits (aIPVersion (wMeta r)) c j) v /\
    (j = (8 * length c)%nat \/ no_data tbl v \/ data_at tbl v).
Proof.
  intros r tbl ip c R Hv V (Vc & Ac & Lc). assert (Sm := start_small r tbl R c). assert (R' := R).
  destruct R' as [R1 R2 _ _ _ _].
  destruct (traverse_ok (aRecordSize (wMeta r)) tbl R1 R2 c (start r c) (length (bits c)) 0 (start r c))
    as (v & j & _ & B & Rv & St); [assumption|lia|constructor|]. rewrite bits_length in *.
  exists j, v. split; [lia|]. split; [now apply start_bits|].
  destruct St as [St|St]; [left; lia|right]. unfold inner, no_data, data_at in *. lia.
Qed.

Lemma v4_block net b a : net_is net b -> aligned b -> length (nIP net) = 4%nat -> in_block b a -> is_v4 a.
Proof.
  intros Hn Ha L [H1 H2]. destruct (net_step fam4 (or_introl eq_refl) net b Hn Ha L) as (last & _ & A & B & _).
  cbn [fam4 fam_first fam_end] in A, B. unfold is_v4. lia.
Qed.
(** The network contains the address and all its addresses have the same answer:
    IPv4 addresses (of a database with IPv4 nodes), in any spelling ... *)
Theorem C35_network_ipv4 : forall r tbl ip net rec, reads r tbl -> has_v4_nodes r -> valid_ip ip -> is_v4 (addr ip) ->
  LookupNetwork r ip = Ok (net, rec) ->
  exists b, net_is net b /\ aligned b /\ in_block b (addr ip) /\ length (nIP net) = 4%nat /\
    forall ip', valid_ip ip' -> in_block b (addr ip') -> LookupNetwork r ip' = Ok (net, rec).
Proof.
  intros r tbl ip net rec R Hv V V4 H. destruct (canon_spec ip V) as (Vc & Ac & Lc).
  assert (L4 : length (canon ip) = 4%nat) by now apply Lc.
  destruct (own_network r tbl R ip net rec V H) as (b & B1 & B2 & B3 & B4 & B5).
  { intros _ E6. now apply Hv. }
  exists b. split; [assumption|]. split; [assumption|]. split; [assumption|]. split; [congruence|].
  intros ip' V' Hin. apply B5; [assumption| |assumption]. split; [auto|]. intros _.
  apply (v4_block net b); [assumption|assumption|congruence|assumption].
Qed.
(** ... and IPv6 addresses that are not IPv4-mapped, for the addresses of that kind. *)
Theorem C35_network_ipv6 : forall r tbl ip net rec, reads r tbl -> valid_ip ip -> ~ is_v4 (addr ip) ->
  LookupNetwork r ip = Ok (net, rec) ->
  exists b, net_is net b /\ aligned b /\ in_block b (addr ip) /\ length (nIP net) = 16%nat /\
    forall ip', valid_ip ip' -> ~ is_v4 (addr ip') -> in_block b (addr ip') -> LookupNetwork r ip' = Ok (net, rec).
Proof.
  intros r tbl ip net rec R V V4 H. destruct (canon_spec ip V) as (Vc & Ac & Lc).
  assert (L16 : length (canon ip) = 16%nat) by (destruct Vc as [Vc|Vc]; [exfalso; apply V4, Lc, Vc|assumption]).
  destruct (own_network r tbl R ip net rec V H) as (b & B1 & B2 & B3 & B4 & B5).
  { intros E _. congruence. }
  exists b. split; [assumption|]. split; [assumption|]. split; [assumption|]. split; [congruence|].
  intros ip' V' N' Hin. apply B5; [assumption| |assumption]. tauto.
Qed.
(** Finding: an IPv6 database whose tree ends above 96 zero bits answers every IPv4
    address with the network ::/d of that end, which contains the IPv4 address (as
    ::ffff:a.b.c.d) only if d <= 80. *)
Theorem C35_shallow_ipv4 : forall r tbl ip, reads r tbl -> aIPVersion (wMeta r) = 6 -> (wV4Depth r < 96)%nat ->
  valid_ip ip -> is_v4 (addr ip) ->
  let net := mkNet IPv6zero (CIDRMask (Z.of_nat (wV4Depth r)) 128) in
  let b := mkBlock 0 (128 - N.of_nat (wV4Depth r)) in
  net_is net b /\ (in_block b (addr ip) <-> (wV4Depth r <= 80)%nat) /\
  reach tbl 0 (repeat false (wV4Depth r)) (wV4Start r) /\
  (no_data tbl (wV4Start r) -> LookupNetwork r ip = Ok (net, None)) /\
  (data_at tbl (wV4Start r) -> LookupNetwork r ip = let* w := retrieveData r (wV4Start r) in Ok (net, Some w)).
Proof.
  intros r tbl ip R E6 Hd V V4 net b. assert (Hd' := Hd).
  assert (Hnet : net_is net b).
  { unfold net, b. replace (CIDRMask _ 128) with (mask_bytes 16 (wV4Depth r)).
    2:{ symmetry. exact (CIDRMask_ok (wV4Depth r) 16 (or_intror eq_refl) ltac:(lia)). }
    constructor; cbn [nIP nMask base logsz].
    - right. reflexivity.
    - rewrite mask_bytes_length. reflexivity.
    - change (length IPv6zero) with 16%nat. lia.
    - assert (M := mask_bytes_val 16 (wV4Depth r) ltac:(lia)). change (length IPv6zero) with 16%nat.
      rewrite M. change (8 * N.of_nat 16) with 128. reflexivity.
    - reflexivity. }
  destruct (rd_v6 _ _ R E6) as [R6 [R96|[_ NI]]]; [lia|].
  split; [assumption|]. split.
  { unfold in_block, b. cbn [base logsz]. unfold is_v4, v4base in V4. split; intros H.
    - destruct (Nat.le_gt_cases (wV4Depth r) 80) as [|G]; [assumption|exfalso].
      assert (2 ^ (128 - N.of_nat (wV4Depth r)) <= 2 ^ 47) by (apply N.pow_le_mono_r; lia).
      change (2 ^ 47) with 140737488355328 in *. change (0xffff * 2 ^ 32) with 281470681743360 in *. lia.
    - assert (2 ^ 48 <= 2 ^ (128 - N.of_nat (wV4Depth r))) by (apply N.pow_le_mono_r; lia).
      change (2 ^ 48) with 281474976710656 in *. change (0xffff * 2 ^ 32) with 281470681743360 in *. change (2 ^ 32) with 4294967296 in *. lia. }
  split; [assumption|].
  destruct (canon_spec ip V) as (Vc & Ac & Lc). assert (L4 : length (canon ip) = 4%nat) by now apply Lc.
  destruct (lookup_char r tbl R ip V (or_introl V4)) as (v & j & Hj & Rv & St & E). cbv zeta in *.
  assert (S0 : start r (canon ip) = wV4Start r) by (unfold start; now rewrite L4). rewrite S0 in *.
  destruct (reach_stop tbl (wV4Start r) [] (wV4Start r) (firstn j (bits (canon ip))) v (reach_root _ _) NI Rv) as [_ ->].
  assert (Ec : aw_cidr r (canon ip) j = net).
  { unfold aw_cidr. rewrite E6, L4. destruct (Nat.eqb_spec (wV4Depth r) 96); [lia|]. reflexivity. }
  unfold LookupNetwork. rewrite E. split; intros Nd.
  - unfold no_data in Nd. rewrite Nd, N.eqb_refl. cbn [bind]. now rewrite N.eqb_refl, Ec.
  - unfold data_at in Nd. destruct (N.eqb_spec (wV4Start r) (N.of_nat (length tbl))); [lia|].
    destruct (N.ltb_spec (N.of_nat (length tbl)) (wV4Start r)); [|lia]. cbn [bind].
    destruct (N.eqb_spec (wV4Start r) 0); [lia|]. now rewrite Ec.
Qed.

(** ** C36 *)
(** Iterating over all networks: in address order, disjoint, exactly those of the tree
    with data; an error exactly if the tree is deeper than the address; always an end. *)
Theorem C36_networks : forall r tbl, reads r tbl -> let w := (if (aIPVersion (wMeta r) =? 6)%N then 16 else 4)%nat in
  exists start outs ok, Networks r = Ok start /\
  (exists F, forall f, (F <= f)%nat -> iterate f r start = Ok (outs, ok)) /\
  StronglySorted (fun a b => nn_after a <= nn_first b) outs /\
  (forall n, In n outs -> length (nnIp n) = w /\ (nnBit n <= 8 * w)%nat /\
     nn_first n mod 2 ^ N.of_nat (8 * w - nnBit n) = 0 /\
     reach tbl 0 (net_bits n) (nnPtr n) /\ data_at tbl (nnPtr n)) /\
  (ok = true -> forall p v, reach tbl 0 p v -> data_at tbl v -> exists n, In n outs /\ net_bits n = p /\ nnPtr n = v) /\
  (ok = false <-> exists p v, reach tbl 0 p v /\ inner tbl v /\ length p = (8 * w)%nat).
Proof.
  intros r tbl R w.
  assert (exists node, Networks r = Ok [node] /\ is_nn w node ([], 0)) as (node & En & Hn).
  { unfold Networks, NetworksWithin, w. cbn [nIP nMask]. destruct (aIPVersion (wMeta r) =? 6); eexists; (split; [reflexivity|]); repeat split. }
  destruct (iterate_spec r tbl R w node [] 0 Hn (reach_root _ _) ltac:(cbn; lia)) as (outs & ok & It & So & Snd & Co & Bad).
  exists [node], outs, ok. split; [assumption|]. split; [assumption|]. split; [assumption|]. split; [|split].
  - intros n Hi. destruct (Snd n Hi) as (A & B & C & D & E & _). rewrite A in C. auto.
  - exact Co.
  - exact Bad.
Qed.

(** The networks listed are those lookups return: for an address of the database's own
    family, a lookup with data is a listed network ... *)
Lemma nn_wnet w n c : (w = 4 \/ w = 16)%nat -> length (nnIp n) = w -> (nnBit n <= 8 * w)%nat ->
  nn_first n mod 2 ^ N.of_nat (8 * length (nnIp n) - nnBit n) = 0 ->
  length c = w -> firstn (nnBit n) (bits c) = net_bits n ->
  mkNet (nnIp n) (CIDRMask (Z.of_nat (nnBit n)) (Z.of_nat (length (nnIp n)) * 8)) = wnet c (nnBit n).
Proof.
  intros Hw L B M Lc E. rewrite (wnet_same c (nnIp n) (nnBit n)) by (try exact E; lia).
  rewrite CIDRMask_ok by lia. unfold wnet. f_equal.
  assert (Ek : 8 * N.of_nat (length (nnIp n)) - N.of_nat (nnBit n) = N.of_nat (8 * length (nnIp n) - nnBit n)) by lia. rewrite Ek.
  unfold nn_first in M. set (k := N.of_nat _) in *. assert (P := pow_pos k).
  assert (D := N.div_mod (val (nnIp n)) (2 ^ k) ltac:(lia)). rewrite M in D.
  replace (val (nnIp n) / 2 ^ k * 2 ^ k) with (val (nnIp n)) by lia. symmetry. apply be_enc_val.
Qed.
Definition own_kind (r : awReader) (ip : bytes) : Prop :=
  if aIPVersion (wMeta r) =? 6 then ~ is_v4 (addr ip) else is_v4 (addr ip).
Lemma own_tree_bits r ip j : valid_ip ip -> own_kind r ip ->
  own_spelling ip (canon ip) /\ length (canon ip) = (if (aIPVersion (wMeta r) =? 6)%N then 16 else 4)%nat /\
  (length (canon ip) = 16%nat -> aIPVersion (wMeta r) <> 4) /\
  tree_bits (aIPVersion (wMeta r)) (canon ip) j = firstn j (bits (canon ip)).
Proof.
  intros V H. destruct (canon_spec ip V) as (Vc & Ac & Lc). unfold own_kind in H.
  split; [now split|]. unfold tree_bits. destruct (N.eqb_spec (aIPVersion (wMeta r)) 6) as [E|E].
  - assert (L : length (canon ip) = 16%nat) by (destruct Vc as [Vc|Vc]; [exfalso; apply H, Lc, Vc|assumption]).
    rewrite L. repeat split; try reflexivity. intros _. lia.
  - assert (L : length (canon ip) = 4%nat) by now apply Lc. rewrite L. repeat split; try reflexivity. lia.
Qed.
Lemma own_walk r tbl ip j v : reads r tbl -> valid_ip ip -> own_kind r ip -> (j <= 8 * length (canon ip))%nat ->
  reach tbl 0 (firstn j (bits (canon ip))) v -> data_at tbl v ->
  LookupNetwork r ip = let* w := retrieveData r v in Ok (wnet (canon ip) j, Some w).
Proof.
  intros R V Ok' Hj Hr Hd. destruct (canon_spec ip V) as (Vc & Ac & Lc).
  destruct (own_tree_bits r ip j V Ok') as (Own & Lw & HV & Et).
  assert (HV' : is_v4 (addr ip) \/ aIPVersion (wMeta r) <> 4).
  { destruct Vc as [Vc|Vc]; [left; now apply Lc | right; auto]. }
  destruct (lookup_char r tbl R ip V HV') as (v' & j' & Hj' & Rv' & St' & E). cbv zeta in *.
  assert (S0 : start r (canon ip) = 0).
  { unfold start. destruct (N.eqb_spec (aIPVersion (wMeta r)) 6) as [E6|E6]; rewrite Lw; cbn [Nat.eqb]; [reflexivity|].
    now apply (rd_v4 _ _ R). }
  rewrite S0 in *.
  destruct (walk_same tbl 0 (canon ip) (canon ip) j v j' v') as [-> ->]; try assumption; try reflexivity;
    try (rewrite bits_length in *; assumption); try (unfold data_at, inner in *; lia).
  unfold LookupNetwork. rewrite E. unfold data_at in Hd.
  destruct (N.eqb_spec v (N.of_nat (length tbl))); [lia|]. destruct (N.ltb_spec (N.of_nat (length tbl)) v); [|lia].
  cbn [bind]. destruct (N.eqb_spec v 0); [lia|]. rewrite aw_cidr_wnet; [reflexivity|assumption|assumption|].
  intros L4 E6. rewrite E6, N.eqb_refl in Lw. congruence.
Qed.
Theorem C36_lookups_listed : forall r tbl start outs F, reads r tbl -> Networks r = Ok start ->
  (forall f, (F <= f)%nat -> iterate f r start = Ok (outs, true)) ->
  forall ip net w, valid_ip ip -> own_kind r ip -> LookupNetwork r ip = Ok (net, Some w) ->
  exists n, In n outs /\ Network r n = Ok (net, w).
Proof.
  intros r tbl start0 outs F R Es It ip net w V Ok' H.
  destruct (C36_networks r tbl R) as (st & outs' & ok & E & [F' It'] & So & Snd & Co & Bad).
  rewrite Es in E. injection E as <-. assert (X := It (F + F')%nat ltac:(lia)). rewrite (It' (F + F')%nat) in X by lia. injection X as -> ->.
  destruct (network_char r tbl R ip net (Some w) V H) as (v & j & Hj & Rv & NI & HV & -> & Hrec & Hall). cbv zeta in *.
  destruct (own_tree_bits r ip j V Ok') as (Own & Lw & HV' & Et).
  assert (S0 : start r (canon ip) = 0).
  { unfold start. destruct (N.eqb_spec (aIPVersion (wMeta r)) 6) as [E6|E6]; rewrite Lw; cbn [Nat.eqb]; [reflexivity|].
    now apply (rd_v4 _ _ R). }
  rewrite S0 in Rv. destruct Hrec as [[_ Hrec]|[Hd (w' & Hw & Hrec)]]; [discriminate|]. injection Hrec as <-.
  destruct (Co eq_refl _ _ Rv Hd) as (n & Hi & En & Ep). exists n. split; [assumption|].
  destruct (Snd n Hi) as (A & B & C & D & E).
  assert (Ej : nnBit n = j).
  { apply (f_equal (@length _)) in En. unfold net_bits in En. rewrite !firstn_length, !bits_length in En. rewrite A in En. rewrite Lw in *. lia. }
  assert (Vc : valid_ip (canon ip)) by apply Own.
  unfold Network. rewrite Ep, Hw. cbn [bind]. do 2 f_equal.
  rewrite (nn_wnet (length (canon ip)) n (canon ip)); try assumption; try congruence.
  - rewrite Ej. symmetry. apply aw_cidr_wnet; [assumption|assumption|]. intros L4 E6. rewrite E6 in Lw. cbn in Lw. congruence.
Qed.
(** ... and the answer for every address of a listed network. *)
Theorem C36_listed_lookups : forall r tbl start outs ok F, reads r tbl -> Networks r = Ok start ->
  (forall f, (F <= f)%nat -> iterate f r start = Ok (outs, ok)) ->
  forall n net w, In n outs -> Network r n = Ok (net, w) ->
  exists b, net_is net b /\ aligned b /\
    forall ip, valid_ip ip -> own_kind r ip -> in_block b (addr ip) -> LookupNetwork r ip = Ok (net, Some w).
Proof.
  intros r tbl start0 outs ok F R Es It n net w Hi Hn.
  destruct (C36_networks r tbl R) as (st & outs' & ok' & E & [F' It'] & So & Snd & Co & Bad).
  rewrite Es in E. injection E as <-. assert (X := It (F + F')%nat ltac:(lia)). rewrite (It' (F + F')%nat) in X by lia. injection X as -> ->.
  destruct (Snd n Hi) as (A & B & C & D & E). unfold Network in Hn.
  destruct (retrieveData r (nnPtr n)) as [w'| | |] eqn:Er; try discriminate. cbn [bind] in Hn. injection Hn as Hn <-.
  set (wd := (if (aIPVersion (wMeta r) =? 6)%N then 16 else 4)%nat) in *.
  assert (Hw : (wd = 4 \/ wd = 16)%nat) by (unfold wd; destruct (aIPVersion (wMeta r) =? 6); auto).
  assert (Vn : valid_ip (nnIp n)) by (unfold valid_ip; rewrite A; assumption).
  assert (Ew : net = wnet (nnIp n) (nnBit n)).
  { rewrite <- Hn. apply (nn_wnet wd); try assumption; try reflexivity. now rewrite A. }
  subst net. rewrite Ew.
  eexists. split; [apply wnet_is; [assumption|now rewrite A]|]. split; [apply wnet_aligned; [assumption|now rewrite A]|].
  intros ip V Ok' Hin. destruct (own_tree_bits r ip 0 V Ok') as ((Vc & Ac & Lc) & Lw & HV & _). fold wd in Lw.
  rewrite <- Ac, addr_val in Hin by assumption. rewrite Lw, A in Hin. rewrite <- A in Hin.
  apply wnet_in in Hin; [|congruence|now rewrite A].
  rewrite (own_walk r tbl ip (nnBit n) (nnPtr n)); try assumption.
  - rewrite Er. cbn [bind]. do 2 f_equal. symmetry. apply wnet_same; [congruence|now rewrite A|assumption].
  - now rewrite Lw.
  - unfold net_bits in D. now rewrite <- Hin.
Qed.

(** NetworksWithin a network of the database's own family: if the tree goes down to it,
    exactly the networks of the tree inside it; else the network of the tree that
    contains it, spelled with the given address (finding: not with the network's own
    first address), or nothing if that has no data. *)
Lemma bval_zero l : bval l = 0 -> l = repeat false (length l).
Proof.
  induction l as [|b l IH]; [reflexivity|]. cbn [bval length repeat]. intros H.
  assert (P := pow_pos (N.of_nat (length l))). destruct b; cbn [N.b2n] in H; [exfalso; nia|]. f_equal. apply IH. lia.
Qed.
Theorem C36_within : forall r tbl net b, reads r tbl -> net_is net b -> aligned b ->
  let w := (if (aIPVersion (wMeta r) =? 6)%N then 16 else 4)%nat in length (nIP net) = w ->
  let p := firstn (8 * w - N.to_nat (logsz b)) (bits (nIP net)) in
  exists start outs ok, NetworksWithin r net = Ok start /\
  (exists F, forall f, (F <= f)%nat -> iterate f r start = Ok (outs, ok)) /\
  (forall v0, reach tbl 0 p v0 ->
    StronglySorted (fun a b => nn_after a <= nn_first b) outs /\
    (forall n, In n outs -> length (nnIp n) = w /\ (nnBit n <= 8 * w)%nat /\
       nn_first n mod 2 ^ N.of_nat (8 * w - nnBit n) = 0 /\
       reach tbl 0 (net_bits n) (nnPtr n) /\ data_at tbl (nnPtr n) /\ exists t, net_bits n = p ++ t) /\
    (ok = true -> forall t v, reach tbl 0 (p ++ t) v -> data_at tbl v -> exists n, In n outs /\ net_bits n = p ++ t /\ nnPtr n = v) /\
    (ok = false <-> exists t v, reach tbl 0 (p ++ t) v /\ inner tbl v /\ length (p ++ t) = (8 * w)%nat)) /\
  (forall q t v, p = q ++ t -> t <> [] -> reach tbl 0 q v ->
    (data_at tbl v -> ok = true /\ outs = [mkNN (nIP net) (length q) v]) /\
    (no_data tbl v -> ok = true /\ outs = [])).
Proof.
  intros r tbl net b R Hn Ha w Lw p. set (ones := (8 * w - N.to_nat (logsz b))%nat) in *.
  assert (Ls := ni_logsz _ _ Hn). rewrite Lw in Ls.
  assert (Es : fst (mask_size (nMask net)) = ones).
  { rewrite (mask_size_net net b Hn), Lw. reflexivity. }
  assert (Lb : length (bits (nIP net)) = (8 * w)%nat) by (rewrite bits_length; lia).
  assert (Lp : length p = ones) by (unfold p; rewrite firstn_length, Lb; unfold ones; lia).
  assert (Zero : bits (nIP net) = p ++ repeat false (8 * w - length p)).
  { rewrite <- (firstn_skipn ones (bits (nIP net))) at 1. fold p. f_equal.
    assert (Ek : length (skipn ones (bits (nIP net))) = (8 * w - length p)%nat) by (rewrite skipn_length; lia).
    rewrite <- Ek. apply bval_zero.
    assert (Ev := bval_bits (nIP net)). rewrite <- (firstn_skipn ones (bits (nIP net))) in Ev. fold p in Ev. rewrite bval_app in Ev.
    rewrite Ek in Ev. replace (N.of_nat (8 * w - length p)) with (logsz b) in Ev by (rewrite Lp; unfold ones; lia).
    assert (Bs := bval_lt (skipn ones (bits (nIP net)))). rewrite Ek in Bs.
    replace (N.of_nat (8 * w - length p)) with (logsz b) in Bs by (rewrite Lp; unfold ones; lia).
    assert (Al : val (nIP net) mod 2 ^ logsz b = 0).
    { unfold aligned in Ha. rewrite (ni_base _ _ Hn), addr_val in Ha by apply (ni_len _ _ Hn). rewrite Lw in Ha.
      destruct (Nat.eqb_spec w 4) as [E4|E4]; [|exact Ha].
      rewrite E4 in Ls. change (8 * N.of_nat 4) with 32 in Ls.
      assert (v4base = 0xffff * 2 ^ (32 - logsz b) * 2 ^ logsz b) as Ev4.
      { rewrite <- N.mul_assoc, <- N.pow_add_r. unfold v4base. f_equal. f_equal. lia. }
      rewrite Ev4, N.add_comm, N.mod_add in Ha; [exact Ha|]. apply N.pow_nonzero. discriminate. }
    rewrite <- Ev, N.add_comm, N.mod_add, N.mod_small in Al; [exact Al|exact Bs|apply N.pow_nonzero; discriminate]. }
  assert (V6 : (aIPVersion (wMeta r) =? 6) && (length (nIP net) =? 4)%nat = false).
  { unfold w in Lw. destruct (aIPVersion (wMeta r) =? 6); [|reflexivity]. rewrite Lw. reflexivity. }
  assert (R' := R). destruct R' as [R1 R2 R3 R4 _ _].
  destruct (traverse_ok (aRecordSize (wMeta r)) tbl R1 R2 (nIP net) 0 ones 0 0)
    as (v & j & Et & Bj & Rv & St); [reflexivity|rewrite Lb; unfold ones; lia|constructor|].
  assert (Es' : NetworksWithin r net = Ok [mkNN (nIP net) j v]).
  { unfold NetworksWithin. rewrite V6, Es. unfold traverseTree. rewrite R3, R4, Et. reflexivity. }
  assert (Case : j = ones \/ (j < ones)%nat /\ ~ inner tbl v) by (destruct St; [left; lia|destruct (Nat.eq_dec j ones); [left; assumption|right; split; [lia|assumption]]]).
  assert (Ep : p = firstn j (bits (nIP net)) ++ skipn j p).
  { rewrite <- (firstn_skipn j p) at 1. unfold p at 1. rewrite firstn_firstn, Nat.min_l by lia. reflexivity. }
  assert (Uniq : forall q t v', p = q ++ t -> reach tbl 0 q v' -> ~ inner tbl v' -> t <> [] -> ~ inner tbl v /\ (j < ones)%nat /\ length q = j /\ v' = v).
  { intros q t v' Eq Rq NI Nt.
    assert (Hl : (length q <= j)%nat).
    { destruct (Nat.le_gt_cases (length q) j) as [|G]; [assumption|exfalso].
      destruct Case as [->|[Hlt NI']].
      - apply (f_equal (@length _)) in Eq. rewrite app_length in Eq. lia.
      - assert (q = firstn j (bits (nIP net)) ++ skipn j q) as Eq2.
        { assert (firstn j q = firstn j (bits (nIP net))) as <-; [|now rewrite firstn_skipn].
          assert (firstn j p = firstn j (bits (nIP net))) by (unfold p; rewrite firstn_firstn, Nat.min_l by lia; reflexivity).
          rewrite <- H, Eq, firstn_app. replace (j - length q)%nat with 0%nat by lia. cbn. now rewrite app_nil_r. }
        rewrite Eq2 in Rq. destruct (reach_stop _ _ _ _ _ _ Rv NI' Rq) as [E0 _].
        apply (f_equal (@length _)) in E0. rewrite skipn_length in E0. cbn [length] in E0. lia. }
    assert (firstn j (bits (nIP net)) = q ++ skipn (length q) (firstn j (bits (nIP net)))) as Eq2.
    { rewrite <- (firstn_skipn (length q) (firstn j (bits (nIP net)))) at 1. f_equal.
      rewrite firstn_firstn, Nat.min_l by lia.
      assert (firstn (length q) p = firstn (length q) (bits (nIP net))) as <- by (unfold p; rewrite firstn_firstn, Nat.min_l by lia; reflexivity).
      rewrite Eq, firstn_app, firstn_all, Nat.sub_diag. cbn. apply app_nil_r. }
    rewrite Eq2 in Rv. destruct (reach_stop _ _ _ _ _ _ Rq NI Rv) as [E0 ->].
    apply (f_equal (@length _)) in E0. rewrite skipn_length, firstn_length, Lb in E0. cbn [length] in E0.
    assert (length q < ones)%nat by (rewrite <- Lp, Eq, app_length; destruct t; [congruence|cbn; lia]).
    assert (ones <= 8 * w)%nat by (unfold ones; lia).
    split; [assumption|]. split; [lia|]. split; [lia|reflexivity]. }
  destruct Case as [Hj|[Hlt NI]].
  - subst j. fold p in Rv.
    assert (Nn : is_nn w (mkNN (nIP net) ones v) (p, v)).
    { unfold is_nn. cbn [nnIp nnBit nnPtr]. repeat split; congruence. }
    destruct (iterate_spec r tbl R w _ p v Nn Rv ltac:(unfold ones in Lp; lia)) as (outs & ok & It & So & Snd & Co & Bad).
    exists [mkNN (nIP net) ones v], outs, ok. split; [assumption|]. split; [assumption|]. split.
    + intros v0 _. split; [assumption|]. split; [|split; assumption].
      intros n Hi. destruct (Snd n Hi) as (A & B & C & D). rewrite A in C. auto.
    + intros q t v' Eq Nt Rq. split; intros Hv'; exfalso;
        destruct (Uniq q t v' Eq Rq ltac:(unfold inner, data_at, no_data in *; lia) Nt) as (_ & L & _); lia.
  - assert (G : forall q t v', p = q ++ t -> t <> [] -> reach tbl 0 q v' -> data_at tbl v' \/ no_data tbl v' -> length q = j /\ v' = v).
    { intros q t v' Eq Nt Rq Hv'. destruct (Uniq q t v' Eq Rq ltac:(unfold inner, data_at, no_data in *; lia) Nt) as (_ & _ & A & B). auto. }
    assert (No : forall v0, ~ reach tbl 0 p v0).
    { intros v0 H0. rewrite Ep in H0. destruct (reach_stop _ _ _ _ _ _ Rv NI H0) as [E0 _].
      apply (f_equal (@length _)) in E0. rewrite skipn_length in E0. cbn [length] in E0. lia. }
    destruct (N.eq_dec v (N.of_nat (length tbl))) as [E|E].
    + exists [mkNN (nIP net) j v], [], true. split; [assumption|]. split; [|split].
      * exists 2%nat. intros [|[|f]] Hf; try lia. cbn [iterate Next descend nnPtr]. rewrite R4, E, N.eqb_refl. reflexivity.
      * intros v0 H0. destruct (No v0 H0).
      * intros q t v' Eq Nt Rq. split; intros Hv'; destruct (G q t v' Eq Nt Rq ltac:(auto)) as [<- ->]; [unfold data_at in Hv'; lia|auto].
    + assert (Dv : data_at tbl v) by (unfold data_at, inner in *; lia). unfold data_at in Dv.
      exists [mkNN (nIP net) j v], [mkNN (nIP net) j v], true. split; [assumption|]. split; [|split].
      * exists 2%nat. intros [|[|f]] Hf; try lia. cbn [iterate Next descend nnPtr]. rewrite R4.
        destruct (N.eqb_spec v (N.of_nat (length tbl))); [lia|]. destruct (N.ltb_spec (N.of_nat (length tbl)) v); [|lia].
        cbn [bind Next iterate]. reflexivity.
      * intros v0 H0. destruct (No v0 H0).
      * intros q t v' Eq Nt Rq. split; intros Hv'; destruct (G q t v' Eq Nt Rq ltac:(auto)) as [<- ->]; [auto|unfold no_data in Hv'; lia].
Qed.

(** Asked for an IPv4 network, an IPv6 database is searched below ::ffff:0:0/96: the answer is that for the
    IPv6 spelling (same addresses) of the network.  (Finding: addresses are looked up elsewhere, below ::/96,
    see C35_network_ipv4; the two agree only in databases that alias one subtree to the other.) *)
Theorem C36_within_ipv4 : forall r net net16 b, aIPVersion (wMeta r) = 6 -> net_is net b -> net_is net16 b ->
  length (nIP net) = 4%nat -> length (nIP net16) = 16%nat -> NetworksWithin r net = NetworksWithin r net16.
Proof.
  intros r net net16 b V N4 N16 L4 L16. unfold NetworksWithin. rewrite V, L4, L16. cbn [N.eqb Pos.eqb Nat.eqb andb].
  rewrite (mask_size_net _ _ N4), (mask_size_net _ _ N16), L4, L16.
  assert (to16 (nIP net) = nIP net16) as ->.
  { assert (G := ni_len _ _ N4). assert (G' := ni_len _ _ N16). apply val_inj.
    - rewrite L16. unfold to16. rewrite L4. cbn [Nat.eqb]. rewrite app_length, L4. reflexivity.
    - rewrite to16_val by assumption. rewrite <- (ni_base _ _ N4), (ni_base _ _ N16), addr_val, L16 by assumption. reflexivity. }
  assert (Ls := ni_logsz _ _ N4). rewrite L4 in Ls. cbn [fst].
  replace (8 * 4 - N.to_nat (logsz b) + 96)%nat with (8 * 16 - N.to_nat (logsz b))%nat by lia. reflexivity.
Qed.
Example C36_within_ipv4_case :
  let net := mkNet [x0a; x00; x00; x00] (CIDRMask 8 32) in
  let net16 := mkNet (to16 [x0a; x00; x00; x00]) (CIDRMask 104 128) in
  let b := mkBlock (v4base + 10 * 2 ^ 24) 24 in net_is net b /\ net_is net16 b.
Proof. split; constructor; vm_compute; try reflexivity; intuition discriminate. Qed.

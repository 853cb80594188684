(** The assertions of the repository's own unit tests, computed in the models: evidence that the models say
    what the code says (these are tests, not properties). *)
From Coq Require Import ZArith List.
From Verif Require Import Base NetIP NetText IpNet IpNetStr Export Convert Json.
Import ListNotations.
Open Scope nat_scope.

Definition bad_net : IPNet := mkNet [] [].
Definition cidr (s : bytes) : IPNet := match ParseCIDR s with Some n => n | None => bad_net end.
Definition ip_of (s : bytes) : bytes := match ParseIP s with Some i => i | None => [] end.
Definition bad_range : Range := mkRange [] [].
Definition range_of (s : bytes) : Range := match NewRange (cidr s) with Ok r => r | _ => bad_range end.
Definition shows (r : Range) : bytes * bytes := (ip_string (rStart r), ip_string (rEnd r)).
Definition blocks (r : Range) : list bytes := match IPNets r with Ok l => map net_string l | _ => [] end.
Definition joined (r : Range) (s : bytes) : bool * Range := match JoinIPNet r (cidr s) with Ok x => x | _ => (false, bad_range) end.

(** /repo/ipnet/range_test.go:26-85 TestRange *)
Example test_range :
  let r0 := range_of (str "0.0.0.0/32") in
  let '(ok1, r1) := Join r0 (range_of (str "0.0.0.1/32")) in
  let '(ok2, r2) := Join r1 (range_of (str "1.0.0.0/32")) in
  shows r0 = (str "0.0.0.0", str "0.0.0.0") /\
  ok1 = true /\ snd (shows r1) = str "0.0.0.1" /\
  ok2 = false /\ snd (shows r2) = str "0.0.0.1" /\
  blocks r2 = [str "0.0.0.0/31"] /\
  blocks (mkRange (rStart r2) (to4 (ip_of (str "0.0.0.255")))) = [str "0.0.0.0/24"] /\
  length (blocks (mkRange (rStart r2) (to4 (ip_of (str "0.0.4.255"))))) = 2.
Proof. vm_compute. repeat split. Qed.
Example test_range_sub :
  let r := range_of (str "58.82.200.0/23") in
  let '(ok1, r1) := joined r (str "58.82.203.0/21") in
  let '(ok2, _) := joined r1 (str "58.82.203.0/20") in
  shows r = (str "58.82.200.0", str "58.82.201.255") /\ ok1 = true /\ snd (shows r1) = str "58.82.207.255" /\ ok2 = false.
Proof. vm_compute. repeat split. Qed.

(** /repo/ipnet/range_test.go:87-101 TestRange2 (the end is in its sixteen-byte form) *)
Example test_range2 :
  let '(_, r) := joined (range_of (str "0.0.0.0/32")) (str "0.0.0.1/32") in
  blocks r = [str "0.0.0.0/31"] /\ blocks (mkRange (rStart r) (ip_of (str "255.255.255.255"))) = [str "0.0.0.0/0"].
Proof. vm_compute. repeat split. Qed.

(** /repo/ipnet/range_test.go:103-158 TestRange_CommonRange *)
Example test_common_range :
  let r1 := range_of (str "58.82.203.0/21") in
  let r2 := range_of (str "58.82.200.0/23") in
  let r3 := range_of (str "58.82.201.0/24") in
  let r4 := range_of (str "58.82.208.0/24") in
  let '(ok1, a) := CommonRange r1 (rStart r1) r2 in
  let '(ok2, b) := CommonRange a (rStart a) r3 in
  let '(ok3, c) := CommonRange b (rStart r3) r3 in
  let '(ok4, _) := CommonRange c (rStart c) r4 in
  shows r1 = (str "58.82.200.0", str "58.82.207.255") /\ shows r2 = (str "58.82.200.0", str "58.82.201.255") /\
  ok1 = true /\ shows a = (str "58.82.200.0", str "58.82.201.255") /\
  shows r3 = (str "58.82.201.0", str "58.82.201.255") /\ ok2 = false /\
  ok3 = true /\ shows c = (str "58.82.201.0", str "58.82.201.255") /\
  shows r4 = (str "58.82.208.0", str "58.82.208.255") /\ ok4 = false.
Proof. vm_compute. repeat split. Qed.

(** /repo/ipnet/range_test.go:160-170 TestPrefixSameLength *)
Example test_prefix_same_length :
  let p a b := PrefixSameLength (to4 (ip_of a)) (to4 (ip_of b)) in
  p (str "0.0.0.1") (str "0.0.0.0") = 31 /\ p (str "1.0.0.1") (str "2.0.0.0") = 6.
Proof. vm_compute. repeat split. Qed.

(** /repo/ipnet/ipnet_test.go:27-37 TestIPNetMaskLess, :39-49 TestUint32ToIPv4 (its random values: C09), :51-58
    TestIPv4StrToUint32, :60-71 TestContains *)
Example test_ipnet :
  MaskLess (cidr (str "0.0.0.0/16")) (cidr (str "0.0.0.0/24")) = false /\
  ip_string (Uint32ToIPv4 128) = str "0.0.0.128" /\
  (let* i := IPv4StrToUint32 (str "1.1.1.1") in Ok (ip_string (Uint32ToIPv4 i))) = Ok (str "1.1.1.1") /\
  IPv4StrToUint32 (str "fake") = Ok 0%N.
Proof. vm_compute. repeat split. Qed.
Example test_contains :
  let c a b i := Contains (ip_of a) (ip_of b) (ip_of i) in
  c (str "1.1.0.0") (str "1.1.0.255") (str "1.1.0.1") = true /\ c (str "1.1.0.0") (str "1.1.0.255") (str "1.1.0.0") = true /\
  c (str "1.1.0.0") (str "1.1.0.255") (str "1.1.0.255") = true /\ c (str "1.1.0.0") (str "1.1.0.255") (str "1.1.1.0") = false /\
  c (str "1.1.0.255") (str "1.1.0.255") (str "1.1.0.255") = true.
Proof. vm_compute. repeat split. Qed.

(** /repo/db/field/export/export_test.go:11-52 TestFieldSelector.  It is stale: it calls a method Select and reads
    a member that ParseRule's result does not have, and expects five columns of the default rule, which has
    seven.  The rows start with the five values it expects. *)
Example test_field_selector :
  match ParseRule DefaultRule with
  | None => False
  | Some e =>
      let pairs := Select [(str "country", str "c"); (str "province", str "p"); (str "city", str "ct"); (str "isp", str "i"); (str "asn", str "a"); (str "latitude", str "l")] (firstn 5 (eFields e)) in
      map (fun p => (pExt p, pIntern p)) pairs = [(str "country", str "c"); (str "province", str "p"); (str "city", str "ct"); (str "isp", str "i"); (str "asn", str "a")] /\
      firstn 5 (eFields e) = [str "country"; str "province"; str "city"; str "isp"; str "asn"] /\ length (eFields e) = 7 /\
      Export e pairs [(str "c", str "中国"); (str "p", str "浙江"); (str "ct", str "杭州"); (str "i", str "电信"); (str "a", str "123"); (str "cc", str "ccc")] =
        Ok [str "中国"; str "浙江"; str "杭州"; str "电信"; str "123"; []; []] /\
      Export e pairs [(str "c", str "日本"); (str "p", str "东京都"); (str "ct", str "品川区"); (str "i", str "WIDE Project"); (str "a", str "123"); (str "bb", str "bbb")] =
        Ok [str "日本"; []; []; []; []; []; []]
  end.
Proof. vm_compute. repeat split. Qed.

(** Tables of Go's own tests (go1.19 net/ip_test.go, from memory: parseIPTests, ipStringTests, parseCIDRTests)
    for the parts of package net in NetText.v that /repo/db/query/query.go:43 and the text formats rest on. *)
Definition v4 (a b c d : N) : option bytes := Some (IPv4 (n2b a) (n2b b) (n2b c) (n2b d)).
Definition bytes_of (l : list N) : bytes := map n2b l.
Example test_parse_ip :
  map (fun s => ParseIP s) [str "127.0.1.2"; str "127.0.0.1"; str "::ffff:127.1.2.3"; str "::ffff:7f01:0203"; str "0:0:0:0:0000:ffff:127.1.2.3"; str "0:0:0:0:000000:ffff:127.1.2.3"; str "0:0:0:0::ffff:127.1.2.3"] =
    [v4 127 0 1 2; v4 127 0 0 1; v4 127 1 2 3; v4 127 1 2 3; v4 127 1 2 3; v4 127 1 2 3; v4 127 1 2 3] /\
  ParseIP (str "2001:4860:0:2001::68") = Some (bytes_of [0x20; 0x01; 0x48; 0x60; 0; 0; 0x20; 0x01; 0; 0; 0; 0; 0; 0; 0; 0x68]%N) /\
  ParseIP (str "2001:4860:0000:2001:0000:0000:0000:0068") = ParseIP (str "2001:4860:0:2001::68") /\
  forallb (fun s => match ParseIP s with None => true | Some _ => false end)
    [str "127.001.002.003"; str "127.007.008.009"; str "127.010.020.030"; str "::ffff:127.001.002.003"; str "::ffff:127.010.020.030";
     str "-0.0.0.0"; str "0.-1.0.0"; str "0.0.-2.0"; str "0.0.0.-3"; str "127.0.0.256"; str "abc"; str "123:"; str "fe80::1%lo0"; str "fe80::1%911"; [];
     str "a1:a2:a3:a4::b1:b2:b3:b4"; str "1.2.3"; str "1.2.3.4.5"; str "1:2:3:4:5:6:7"; str "1:2:3:4:5:6:7:8:9"; str "::1::"] = true.
Proof. vm_compute. repeat split. Qed.
Example test_ip_string :
  map (fun l => ip_string (bytes_of l))
    [[0x20; 0x1; 0xd; 0xb8; 0; 0; 0; 0; 0; 0; 0x1; 0x23; 0; 0x12; 0; 0x1];
     [0x20; 0x1; 0xd; 0xb8; 0; 0; 0; 0; 0; 0; 0; 0; 0; 0; 0; 0x1];
     [0x20; 0x1; 0xd; 0xb8; 0; 0; 0; 0x1; 0; 0; 0; 0x1; 0; 0; 0; 0x1];
     [0x20; 0x1; 0xd; 0xb8; 0; 0x1; 0; 0; 0; 0x1; 0; 0; 0; 0x1; 0; 0];
     [0x20; 0x1; 0; 0; 0; 0; 0; 0; 0; 0x1; 0; 0; 0; 0; 0; 0x1];
     [0x20; 0x1; 0xd; 0xb8; 0; 0; 0; 0; 0; 0x1; 0; 0; 0; 0; 0; 0];
     [0x20; 0x1; 0xd; 0xb8; 0; 0; 0; 0; 0; 0x1; 0; 0; 0; 0; 0; 0x1];
     [0x20; 0x1; 0xd; 0xb8; 0; 0; 0; 0; 0; 0xa; 0; 0xb; 0; 0xc; 0; 0xd];
     [192; 168; 0; 1]]%N =
    [str "2001:db8::123:12:1"; str "2001:db8::1"; str "2001:db8:0:1:0:1:0:1"; str "2001:db8:1:0:1:0:1:0"; str "2001::1:0:0:1";
     str "2001:db8:0:0:1::"; str "2001:db8::1:0:0:1"; str "2001:db8::a:b:c:d"; str "192.168.0.1"].
Proof. vm_compute. reflexivity. Qed.
Definition shown_cidr (s : bytes) : option bytes := option_map net_string (ParseCIDR s).
Example test_parse_cidr :
  map shown_cidr [str "135.104.0.0/32"; str "0.0.0.0/24"; str "135.104.0.0/24"; str "135.104.0.1/32"; str "135.104.0.1/24"; str "::1/128"; str "abcd:2345::/127"; str "abcd:2345::/65";
     str "abcd:2345::/64"; str "abcd:2345::/33"; str "abcd:2345::/32"; str "abcd:2344::/31"; str "abcd:2300::/24"; str "abcd:2345::/24"; str "2001:db8::/48"; str "2001:db8::1/48"] =
    map Some [str "135.104.0.0/32"; str "0.0.0.0/24"; str "135.104.0.0/24"; str "135.104.0.1/32"; str "135.104.0.0/24"; str "::1/128"; str "abcd:2345::/127"; str "abcd:2345::/65";
     str "abcd:2345::/64"; str "abcd:2345::/33"; str "abcd:2345::/32"; str "abcd:2344::/31"; str "abcd:2300::/24"; str "abcd:2300::/24"; str "2001:db8::/48"; str "2001:db8::/48"] /\
  map shown_cidr [str "192.168.1.1/255.255.255.0"; str "192.168.1.1/35"; str "2001:db8::1/-1"; str "2001:db8::1/-0"; str "-0.0.0.0/32"; str "0.-1.0.0/32"; str "0.0.-2.0/32"; str "0.0.0.-3/32"; str "0.0.0.0/-0"; str "127.000.000.001/32"; []] =
    repeat None 11.
Proof. vm_compute. split; reflexivity. Qed.
(** encoding/json encode_test.go: escapes of texts (quotes, HTML, U+2028, bytes that are no UTF-8). *)
Example test_json_text :
  map (fun s => Json.enc_str s) [str "<script>"; str "a&b"; bytes_of [0xe2; 0x80; 0xa8]%N; bytes_of [0x61; 0xff; 0x62]%N; bytes_of [0x22; 0x5c; 0x0a; 0x09; 0x01]%N] =
    [[x22] ++ str "\u003cscript\u003e" ++ [x22]; [x22] ++ str "a\u0026b" ++ [x22]; [x22] ++ str "\u2028" ++ [x22]; [x22] ++ str "a\ufffdb" ++ [x22];
     [x22; x5c; x22] ++ str "\\\n\t\u0001" ++ [x22]].
Proof. vm_compute. reflexivity. Qed.

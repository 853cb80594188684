(** The rest of the Rust and Java interfaces: version information and queries by text.
    java: java/src/main/java/qiniu/uip/db.  The address parsers of the Rust and Java
    standard libraries are arguments. *)
From Verif Require Export Foreign.
From Verif Require Import NetText Json.
Open Scope Z_scope.

(** rust/src/data.rs:38-45 and java VersionInfo.java:5-14 VersionInfo: the record of Go is
    used; ip_type and count are the 32-bit numbers of the metadata. *)

(** rust/src/formats/ipdb.rs:36-48 version; [version]: whether the metadata has a version
    that is not null (package ipdb always writes one; Go's record cannot tell). *)
Definition rs_version (version : bool) (r : RReader) : VersionInfo :=
  let m := rsMeta r in
  mkVersion (Z.of_N (mIPVersion m)) (Z.to_N (mNodeCount m)) (mBuild m)
            (if version then mVersion m else str "ipip.net-" ++ dec_int (mBuild m)) [str "CN"] (mExtra m).

(** java format/ipdb/Ipdb.java:30-46 version *)
Definition j_version (r : JReader) : VersionInfo :=
  let m := jrMeta r in
  mkVersion (Z.of_N (mIPVersion m)) (Z.to_N (mNodeCount m)) (mBuild m)
            (match mVersion m with [] => str "ipip.net-" ++ dec_int (mBuild m) | v => v end) [str "CN"] (mExtra m).

(** rust/src/query.rs:29-44 query_str; [parse]: str::parse::<IpAddr> and octets *)
Definition rs_query_str (parse : bytes -> option bytes) (lossy : bytes -> bytes) (r : RReader) (s : bytes) : res IpInfo :=
  match parse s with
  | Some ip => rs_query lossy r ip
  | None => Err (ErrOther (str "parse ip error"))
  end.

(** java Query.java:53,59 indexOf(c) > 0 *)
Fixpoint occurs (c : byte) (s : bytes) : bool :=
  match s with [] => false | x :: r => byte_eqb x c || occurs c r end.
Definition index_positive (c : byte) (s : bytes) : bool :=
  match s with [] => false | x :: r => negb (byte_eqb x c) && occurs c r end.

(** java Query.java:48-69 query(String); [v4], [v6]: sun.net.util.IPAddressUtil, java util/IPAddress.java:9-15 *)
Definition j_query_str (v4 v6 : bytes -> option bytes) (lossy : bytes -> bytes) (q : JReader * JCache) (s : bytes) : res JInfo :=
  if is_nil s then Err ErrIPFormat
  else if index_positive x3a s then
    match v6 s with Some ip => j_query lossy q ip | None => Err ErrIPFormat end
  else if index_positive x2e s then
    match v4 s with Some ip => j_query lossy q ip | None => Err ErrIPFormat end
  else Err ErrIPFormat.

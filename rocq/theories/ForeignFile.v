(** Opening a database by file name in Rust and Java.
    java: java/src/main/java/qiniu/uip.  What a file holds is given as an option (None: it cannot be
    opened or read).  File names are byte strings; a dot is one byte in UTF-8 as in UTF-16. *)
From Verif Require Export Foreign.
From Verif Require Import Facade ForeignApi.
Open Scope nat_scope.

(** java/src/main/java/qiniu/uip/db/Query.java:26: filename.substring(filename.lastIndexOf(".")); None: the index is -1 and
    substring throws StringIndexOutOfBoundsException *)
Fixpoint j_ext (s : bytes) : option bytes :=
  match s with
  | [] => None
  | c :: r => match j_ext r with
              | Some e => Some e
              | None => if byte_eqb c x2e then Some (c :: r) else None
              end
  end.

(** java/src/main/java/qiniu/uip/util/File.java:11-21 readAll: the buffer has 16384 bytes; call k of read delivers as many bytes
    as the system likes ([got k]), at least one and at most the buffer; at the end -1 *)
Fixpoint j_readAll (fuel k : nat) (got : nat -> nat) (rest out : bytes) : res bytes :=
  match fuel with
  | O => OutOfFuel
  | S f =>
      match rest with
      | [] => Ok out
      | _ => let n := Nat.min (Nat.max 1 (got k)) (N.to_nat 16384) in
             j_readAll f (S k) got (skipn n rest) (out ++ firstn n rest)
      end
  end.

Section Open.
Variable unmarshal : bytes -> option MetaData.
Variable lossy : bytes -> bytes.
Variable ips : list bytes.

(** java/src/main/java/qiniu/uip/db/Query.java:31-46 create(byte[], String) with 15-17: one format is registered *)
Definition j_create_format (data format : bytes) : res (JReader * JCache) :=
  if bytes_eqb format (str ".ipdb") then j_create unmarshal lossy ips data
  else Err (ErrOther (str "not support format")).

(** java/src/main/java/qiniu/uip/db/Query.java:25-29 create(String): the extension is cut off before the file is read *)
Definition j_create_file (got : nat -> nat) (file : bytes) (content : option bytes) : res (JReader * JCache) :=
  match j_ext file with
  | None => Panic
  | Some ext =>
      match content with
      | None => Err (ErrOther (str "IOException"))
      | Some b => let* data := j_readAll (S (length b)) 0 got b [] in j_create_format data ext
      end
  end.

(** rust/src/query.rs:11-22 from_file, from_bytes, rust/src/formats/ipdb.rs:21-24 new: the name does not matter *)
Definition rs_from_file (content : option bytes) : res RReader :=
  match content with
  | None => Err (ErrOther (str "open"))
  | Some b => rs_new unmarshal b
  end.
End Open.

(** Answers as text in Rust and Java, and the command line tool of Rust (rust/src/bin/query.rs).
    The texts of errors and of a list of arguments in debug form ({:?}) are arguments, and so is the address
    parser of the Rust library. *)
From Verif Require Export ForeignFile.
From Verif Require Import ForeignApi Facade Convert.
Open Scope nat_scope.

(** rust/src/data.rs:20-28 fmt of IpInfo *)
Definition rs_show_info (i : IpInfo) : bytes :=
  str "Country: " ++ iCountry i ++ str ", District: " ++ iDistrict i ++ str ", Province: " ++ iProvince i ++
  str ", City: " ++ iCity i ++ str ", Asn: " ++ iAsn i ++ str ", Isp: " ++ iIsp i ++
  str ", Continent: " ++ iContinent i ++ str ", Line: " ++ iLine i.

(** java.lang.String.format, %s of a string or of null; used at java/src/main/java/qiniu/uip/db/IpInfo.java:14 *)
Definition j_text (o : option bytes) : bytes := match o with Some v => v | None => str "null" end.

(** java/src/main/java/qiniu/uip/db/IpInfo.java:13-15 toString *)
Definition j_show_info (i : JInfo) : bytes :=
  str "country: " ++ j_text (jCountry i) ++ str ", district: " ++ j_text (jDistrict i) ++ str ", province: " ++ j_text (jProvince i) ++
  str ", city: " ++ j_text (jCity i) ++ str ", asn: " ++ j_text (jAsn i) ++ str ", isp: " ++ j_text (jIsp i) ++
  str ", continent: " ++ j_text (jContinent i) ++ str ", line: " ++ j_text (jLine i).

Section Tool.
Variable show_args : list bytes -> bytes.
Variable show_error : error -> bytes.
Variable unmarshal : bytes -> option MetaData.
Variable parse : bytes -> option bytes.
Variable lossy : bytes -> bytes.

(** rust/src/bin/query.rs:3-27 main: what is written to standard output; the program ends with status 0 unless it
    crashes.  [args] has the name of the program first. *)
Definition rs_main (fs : files) (args : list bytes) : res bytes :=
  let first := str "args: " ++ show_args args ++ [x0a] in
  match args with
  | [] => Panic
  | prog :: rest =>
      match rest with
      | path :: ip :: _ =>
          match rs_from_file unmarshal (fs path) with
          | Ok q =>
              match rs_query_str parse lossy q ip with
              | Ok info => Ok (first ++ str "query ip: " ++ ip ++ str ", info: " ++ rs_show_info info ++ [x0a])
              | Err e => Ok (first ++ str "query ip: " ++ ip ++ str ", error: " ++ show_error e ++ [x0a])
              | Panic => Panic
              | OutOfFuel => OutOfFuel
              end
          | Err e => Ok (first ++ str "open ipdb error: " ++ show_error e ++ [x0a])
          | Panic => Panic
          | OutOfFuel => OutOfFuel
          end
      | _ => Ok (first ++ str "Usage: " ++ prog ++ str " <ipdb> <ip>" ++ [x0a])
      end
  end.
End Tool.

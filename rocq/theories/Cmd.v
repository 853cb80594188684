(** Model of /repo/cmd/simple/main.go and of the start of /repo/cmd/server/main.go: what the
    programs write for their arguments.  [nl], [ne]: which empty slices of the version are nil
    (Server.v). *)
From Verif Require Export Server Convert.
Open Scope Z_scope.

(** fmt's %+v of the structure db/inf/db_inf.go:8-20, a pointer to it at top level; its
    fields are strings and are written as they are.  cmd/simple/main.go:32 *)
Definition show_fields (i : IpInfo) : bytes :=
  str "Country:" ++ iCountry i ++ str " District:" ++ iDistrict i ++ str " Province:" ++ iProvince i ++
  str " City:" ++ iCity i ++ str " Asn:" ++ iAsn i ++ str " Isp:" ++ iIsp i ++
  str " Continent:" ++ iContinent i ++ str " Line:" ++ iLine i.
(* fmt %+v of a pointer to a structure, or of a nil one, at cmd/simple/main.go:32 *)
Definition show_info (i : option IpInfo) : bytes :=
  match i with Some i => str "&{" ++ show_fields i ++ str "}" | None => str "<nil>" end.

(** strings.HasPrefix(ip, v) with the letter v, cmd/simple/main.go:23 *)
Definition starts_v (s : bytes) : bool := match s with c :: _ => byte_eqb c x76 | [] => false end.

(** cmd/simple/main.go:14-33: standard output and the error that is logged; [args] are
    os.Args[1:]; the program ends with status 0 unless it crashes *)
Definition simpleMain (E : env) (ipList : list bytes) (nl ne : bool) (fs : files) (args : list bytes) : res (bytes * option error) :=
  match args with
  | f :: ip :: _ =>
      match NewDb (serverFormats E) ipList f (fs f) with
      | Err e => Ok ([], Some e)
      | Ok q =>
          if starts_v ip then Ok (marshal_version nl ne (q_version q) ++ [x0a], None)
          else
            let* ' (i, _, err) := QueryStr q ip in
            match err with
            | Some e => Ok ([], Some e)
            | None => Ok (show_info i ++ [x0a], None)
            end
      | Panic => Panic
      | OutOfFuel => OutOfFuel
      end
  | _ => Panic
  end.

(** cmd/server/main.go:12-27: the database the server serves (its address is args[2]), or the
    error that is logged before it ends with status 0 *)
Definition serverMain (E : env) (ipList : list bytes) (fs : files) (args : list bytes) : res (option queryDb * option error) :=
  match args with
  | f :: _ :: _ =>
      match NewDb (serverFormats E) ipList f (fs f) with
      | Ok q => Ok (Some q, None)
      | Err e => Ok (None, Some e)
      | Panic => Panic
      | OutOfFuel => OutOfFuel
      end
  | _ => Panic
  end.

(** Model of the rest of /repo/cmd/converter/main.go: the rule, the operations and the
    outputs of one run. *)
From Verif Require Import Base NetIP IpNet Inf Ipdb Export Tables Operate Plain Memip AwDecode AwTree Facade.
Open Scope nat_scope.

(** db/field/export/export.go:21-22 DefaultRule and LineRule *)
Definition DefaultRule : bytes :=
  str "country,province,city,isp,asn,continent,district|country=!中国:country,continent|province=台湾/中国台湾:country,province,continent,district".
Definition LineRule : bytes := str "line".
(** cmd/converter/main.go:46-49: the rule called default *)
Definition converterRule (r : bytes) : bytes := if bytes_eqb r (str "default") then DefaultRule else r.

(** The files: what each path holds, None when it cannot be read. *)
(* os.ReadFile and os.Create at db/convert/dumper.go:15, db/convert/packer.go:16 *)
Definition files := bytes -> option bytes.
(* os.Create and the writes at db/convert/packer.go:16-23 *)
Definition set_file (fs : files) (p b : bytes) : files := fun q => if bytes_eqb p q then Some b else fs q.
(** cmd/converter/main.go:57-65: the outputs one after the other, up to the first error.  What
    was written before a crash is modelled in Writes.v. *)
Fixpoint write_outputs (E : env) (can_create : bytes -> bool) (outputs : list bytes) (fs : files) (d : HData) : res (files * option error) :=
  match outputs with
  | [] => Ok (fs, None)
  | o :: r =>
      let* ' (w, d', err) := PackFile (converterFormats E) (can_create o) o d in
      let fs' := match w with Some b => set_file fs o b | None => fs end in
      match err with
      | Some e => Ok (fs', Some e)
      | None => write_outputs E can_create r fs' d'
      end
  end.
(** cmd/converter/main.go:28-43: the line database (none for the empty name) *)
Definition line_db (E : env) (ipList : list bytes) (fs : files) (line : bytes) (replace : bool) : res (option (queryDb * bool)) :=
  match line with
  | [] => Ok None
  | _ => let* q := NewDb (converterFormats E) ipList line (fs line) in Ok (Some (q, replace))
  end.
(** cmd/converter/main.go:20-66 main, after the flags are parsed: the files and the error it
    logs (None when it is done).  Log lines are not modelled; Panic is a crash. *)
Definition converterMain (E : env) (ipList : list bytes) order (grow : nat -> nat) (can_create : bytes -> bool) (fs : files)
    (input output rule line : bytes) (replace : bool) : res (files * option error) :=
  match line_db E ipList fs line replace with
  | Ok q =>
      match DumpFile (converterFormats E) input (fs input) (converterRule rule) (converterOps order grow q) with
      | Ok d => write_outputs E can_create (split x2c output) fs d
      | Err e => Ok (fs, Some e)
      | Panic => Panic
      | OutOfFuel => OutOfFuel
      end
  | Err e => Ok (fs, Some e)
  | Panic => Panic
  | OutOfFuel => OutOfFuel
  end.

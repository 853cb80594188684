(** The command line of cmd/converter: package flag of Go's standard library as the program uses it
    (flag.CommandLine, ExitOnError) and the program from its arguments on. *)
From Verif Require Export Convert.
From Verif Require Import Base NetIP Operate NetText Facade.
Open Scope nat_scope.

(** cmd/converter/main.go:21-25: the variables of the five options *)
Record opts := mkOpts { oInput : bytes; oOutput : bytes; oRule : bytes; oLine : bytes; oReplace : bool }.
(* cmd/converter/main.go:21-25: the default values *)
Definition default_opts : opts := mkOpts [] [] (str "default") [] false.
(* cmd/converter/main.go:21-25: which option is meant *)
Inductive option_name := NInput | NOutput | NRule | NLine | NReplace.
(* cmd/converter/main.go:21-25: the names *)
Definition formal (name : bytes) : option option_name :=
  if bytes_eqb name (str "i") then Some NInput
  else if bytes_eqb name (str "o") then Some NOutput
  else if bytes_eqb name (str "r") then Some NRule
  else if bytes_eqb name (str "line") then Some NLine
  else if bytes_eqb name (str "line-replace") then Some NReplace
  else None.

(** strconv.ParseBool, called by flag's boolValue.Set for cmd/converter/main.go:25 *)
Definition parse_bool (s : bytes) : option bool :=
  if in_array s [str "1"; str "t"; str "T"; str "true"; str "TRUE"; str "True"] then Some true
  else if in_array s [str "0"; str "f"; str "F"; str "false"; str "FALSE"; str "False"] then Some false
  else None.

(** flag.Value.Set of the options of cmd/converter/main.go:21-25; None: an error *)
Definition set_opt (n : option_name) (v : bytes) (o : opts) : option opts :=
  match n with
  | NInput => Some (mkOpts v (oOutput o) (oRule o) (oLine o) (oReplace o))
  | NOutput => Some (mkOpts (oInput o) v (oRule o) (oLine o) (oReplace o))
  | NRule => Some (mkOpts (oInput o) (oOutput o) v (oLine o) (oReplace o))
  | NLine => Some (mkOpts (oInput o) (oOutput o) (oRule o) v (oReplace o))
  | NReplace => match parse_bool v with
                | Some b => Some (mkOpts (oInput o) (oOutput o) (oRule o) (oLine o) b)
                | None => None
                end
  end.

(** How parsing ends: the program goes on, or ends with a status (flag.ExitOnError). *)
(* flag.Parse, called at cmd/converter/main.go:26 *)
Inductive parsed := Go (o : opts) | Exit (status : Z).

(** What one word is for flag.FlagSet.parseOne: the end of the options, bad syntax, or a name with
    an optional value after the first = that is not the first byte. *)
(* flag.FlagSet.parseOne, called through cmd/converter/main.go:26 *)
Inductive word := Stop | Bad | Named (name : bytes) (value : option bytes).
(* flag.FlagSet.parseOne, called through cmd/converter/main.go:26 *)
Definition read_word (s : bytes) : word :=
  match s with
  | d :: c :: r =>
      if negb (byte_eqb d x2d) then Stop
      else
        let name := if byte_eqb c x2d then r else c :: r in
        if byte_eqb c x2d && is_nil r then Stop
        else
          match name with
          | [] => Bad
          | n :: t =>
              if byte_eqb n x2d || byte_eqb n x3d then Bad
              else match cut x3d t with
                   | Some (a, v) => Named (n :: a) (Some v)
                   | None => Named (n :: t) None
                   end
          end
  | _ => Stop
  end.

(** flag.FlagSet.Parse and parseOne: the options from left to right up to the first word that is
    none; an error ends the program with status 2, a request for help with 0.  Called at
    cmd/converter/main.go:26 *)
Fixpoint parse_flags (args : list bytes) (o : opts) : parsed :=
  match args with
  | [] => Go o
  | s :: rest =>
      match read_word s with
      | Stop => Go o
      | Bad => Exit 2
      | Named name value =>
          match formal name with
          | None => if bytes_eqb name (str "help") || bytes_eqb name (str "h") then Exit 0 else Exit 2
          | Some NReplace =>
              match set_opt NReplace (match value with Some v => v | None => str "true" end) o with
              | Some o' => parse_flags rest o'
              | None => Exit 2
              end
          | Some n =>
              match value with
              | Some v => match set_opt n v o with Some o' => parse_flags rest o' | None => Exit 2 end
              | None =>
                  match rest with
                  | v :: rest' => match set_opt n v o with Some o' => parse_flags rest' o' | None => Exit 2 end
                  | [] => Exit 2
                  end
              end
          end
      end
  end.

(** cmd/converter/main.go:20-66 main: the files afterwards, the error it logs, and the exit status
    ([args] are os.Args[1:]).  A crash is Panic. *)
Definition converterProgram (E : env) (ipList : list bytes) order (grow : nat -> nat) (can_create : bytes -> bool) (fs : files)
    (args : list bytes) : res (files * option error * Z) :=
  match parse_flags args default_opts with
  | Exit status => Ok (fs, None, status)
  | Go o =>
      let* ' (fs', e) := converterMain E ipList order grow can_create fs (oInput o) (oOutput o) (oRule o) (oLine o) (oReplace o) in
      Ok (fs', e, 0%Z)
  end.

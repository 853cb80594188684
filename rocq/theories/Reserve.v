(** What the .scan reader reserves: the capacities passed to make. *)
From Verif Require Import Base NetIP NetText Inf Export Plain.

Section Json.
Variable unmarshal : bytes -> option (option VersionInfo).

(** db/format/plain/dumper.go:55,111 t.Version.Count+1: the sum of two uint32 wraps around *)
Definition count_cap (v : VersionInfo) : N := ((vCount v + 1) mod 2 ^ 32)%N.

(** db/format/plain/dumper.go:37-62 newDumper: the capacity of t.lines (line 55), reserved
    at the third line, before any row is read *)
Definition line_cap (data : bytes) : list N :=
  match scan_lines data with
  | _ :: l1 :: l2 :: _ =>
      match drop5 l1, drop5 l2 with
      | Ok j, Ok _ => match unmarshal j with Some (Some v) => [count_cap v] | _ => [] end
      | _, _ => []
      end
  | _ => []
  end.

(** db/format/plain/dumper.go:102-111 Dump: the capacity of ret.Ips (line 111), reserved
    before any row is parsed *)
Definition row_cap (data : bytes) : list N :=
  match newDumper unmarshal data with
  | Ok t => match tVersion t with Some v => [count_cap v] | None => [] end
  | _ => []
  end.

(** db/format/plain/dumper.go:18-29 dump: all capacities in order *)
Definition reserves (data : bytes) : list N := line_cap data ++ row_cap data.
End Json.

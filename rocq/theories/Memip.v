(** Model of /repo/db/format/memip (packer.go, dumper.go). *)
From Verif Require Export Base NetIP IpNet Inf NetText.
From Verif Require Import Plain.   (* scan_lines: bufio.Scanner *)
Open Scope nat_scope.

(** db/format/memip/init.go:8 fields *)
Definition memFields : list bytes := [fCity; fProvince; fDistrict; fISP; fCountry; fContinent].

(* ------------------------------------------------------------------ *)
(** * packer.go *)

(* db/format/memip/packer.go:68,72,103 *)
Definition unknown : bytes := str "默认".

(** strings.HasPrefix *)
(* strings.HasPrefix, called from db/format/memip/packer.go:71 *)
Fixpoint has_prefix (s p : bytes) : bool :=
  match p, s with
  | [], _ => true
  | x :: p', y :: s' => byte_eqb x y && has_prefix s' p'
  | _ :: _, [] => false
  end.

(** db/format/memip/packer.go:50-62 fieldOffsets (None for -1) *)
Definition fieldOffsets (fs : list bytes) : list (option nat) := map (fun f => offset_of f fs) memFields.

(** db/format/memip/packer.go:72-98: the value of output column i *)
Definition covert_value (i : nat) (nv : bytes) : bytes :=
  let nv := if is_nil nv || has_prefix nv (str "保留") then unknown else nv in
  let nv := if i =? 5 then
      if bytes_eqb nv (str "AS") then str "亚洲"
      else if bytes_eqb nv (str "EU") then str "欧洲"
      else if bytes_eqb nv (str "NA") then str "北美洲"
      else if bytes_eqb nv (str "SA") then str "南美洲"
      else if bytes_eqb nv (str "AF") then str "非洲"
      else if bytes_eqb nv (str "OC") then str "大洋洲"
      else if bytes_eqb nv (str "AN") then str "南极洲" else nv
    else nv in
  if i =? 3 then
    if negb (bytes_eqb nv (str "电信")) && negb (bytes_eqb nv (str "联通"))
       && negb (bytes_eqb nv (str "移动")) && negb (bytes_eqb nv unknown)
    then str "其他" else nv
  else nv.

(** db/format/memip/packer.go:66-107: the loop over the six columns *)
Fixpoint covert_loop (i : nat) (offs : list (option nat)) (values nw : list bytes) : res (list bytes) :=
  match offs with
  | [] => Ok nw
  | o :: r =>
      let* nv := match o with
                 | None => Ok unknown
                 | Some v => let* x := idx values v in Ok (covert_value i x)
                 end in
      let nw := upd nw i nv in
      let pv := nth 1 nw [] in
      let nw := if bytes_eqb pv (str "香港") || bytes_eqb pv (str "澳门") || bytes_eqb pv (str "台湾")
                then upd nw 2 unknown else nw in
      covert_loop (S i) r values nw
  end.
(** db/format/memip/packer.go:64-109 covertValues *)
Definition covertValues (offs : list (option nat)) (values : list bytes) : res (list bytes) :=
  covert_loop 0 offs values (repeat [] 6).

(** db/format/memip/packer.go:17-38: the merge loop with prev set *)
Fixpoint mem_merge (offs : list (option nat)) (r : Range) (f : list bytes) (rows : list IpRaw)
  : res (list (Range * list bytes)) :=
  match rows with
  | [] => Ok [(r, f)]
  | row :: rest =>
      let* values := covertValues offs (fvals row) in
      let fresh :=
        let* r2 := NewRange (cidr row) in
        let* out := mem_merge offs r2 values rest in Ok ((r, f) :: out) in
      if strs_eqb (skipn 1 f) (skipn 1 values) then
        let* ' (ok, r2) := JoinIPNet r (cidr row) in
        if ok then mem_merge offs r2 f rest else fresh
      else fresh
  end.

(** db/format/memip/packer.go:39-46: the lines *)
Definition mem_line (v4 : bool) (rf : Range * list bytes) : res bytes :=
  let view := join x2d (snd rf) in
  if v4 then
    let* s := IPv4ToUint32 (rStart (fst rf)) in
    let* e := IPv4ToUint32 (rEnd (fst rf)) in
    Ok (dec s ++ x20 :: dec e ++ x20 :: view ++ [x0a])
  else Ok (ip_string (rStart (fst rf)) ++ x20 :: ip_string (rEnd (fst rf)) ++ x20 :: view ++ [x0a]).
Fixpoint mem_lines (v4 : bool) (l : list (Range * list bytes)) : res bytes :=
  match l with
  | [] => Ok []
  | x :: r => let* a := mem_line v4 x in let* b := mem_lines v4 r in Ok (a ++ b)
  end.

(** db/format/memip/packer.go:13-48 pack; without rows the nil range of [prev] is dereferenced *)
Definition mpack (d : IpData) : res bytes :=
  let offs := fieldOffsets (dFields d) in
  match dIps d with
  | [] => Panic
  | row :: rest =>
      let* values := covertValues offs (fvals row) in
      let* r := NewRange (cidr row) in
      let* l := mem_merge offs r values rest in
      mem_lines (vIpType (dVersion d) =? 1)%Z l
  end.

(* ------------------------------------------------------------------ *)
(** * dumper.go *)

(** strings.Contains(s, ":") *)
(* strings.Contains, called from db/format/memip/dumper.go:92,108 *)
Definition has_colon (s : bytes) : bool := existsb (fun c => byte_eqb c x3a) s.

(** db/format/memip/dumper.go:62-72 parseV6Range, 74-84 parseV4Range (None for nil) *)
Definition parseV6Range (a b : bytes) : option Range :=
  match ParseIP a, ParseIP b with
  | Some s, Some e => Some (mkRange s e)
  | _, _ => None
  end.
Definition parseV4Range (a b : bytes) : option Range :=
  match ParseUint32 a, ParseUint32 b with
  | Some s, Some e => Some (mkRange (Uint32ToIPv4 s) (Uint32ToIPv4 e))
  | _, _ => None
  end.

(** db/format/memip/dumper.go:86-100 parseLine *)
Definition mparseLine (line : bytes) : res (option Range * list bytes) :=
  match split x20 line with
  | [a; b; view] =>
      Ok ((if has_colon a then parseV6Range a b else parseV4Range a b), split x2d view)
  | _ => Err (ErrOther (str "bad format"))
  end.

(** db/format/memip/dumper.go:115-132: the rows; a nil range is dereferenced *)
Fixpoint mem_rows (lines : list bytes) : res (list (Range * list bytes)) :=
  match lines with
  | [] => Ok []
  | l :: r =>
      let* ' (rg, values) := mparseLine l in
      match rg with
      | None => Panic
      | Some rg =>
          if IsAllMask (rEnd rg) then Ok [(rg, values)]
          else let* rest := mem_rows r in Ok ((rg, values) :: rest)
      end
  end.

(** db/format/memip/dumper.go:137-146: split the ranges *)
Fixpoint mem_split (l : list (Range * list bytes)) : res (list IpRaw) :=
  match l with
  | [] => Ok []
  | (r, v) :: rest =>
      let* nets := IPNets r in
      let* out := mem_split rest in
      Ok (map (fun n => mkRaw n v) nets ++ out)
  end.

(** db/format/memip/dumper.go:17-28 dump, 36-56 newDumper, 107-112 ipVer, 114-149 Dump.  [now],
    [today] are the clock; the exporter is ignored. *)
Definition mdump (now : Z) (today : bytes) (data : bytes) : res IpData :=
  let lines := scan_lines data in
  let* rs := mem_rows lines in
  let* rows := mem_split rs in
  let* l0 := idx lines 0 in
  Ok (mkData memFields
        (mkVersion (if has_colon l0 then 2 else 1)%Z (N.of_nat (length rows) mod 2 ^ 32)%N now today [] []) rows).

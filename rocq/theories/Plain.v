(** Model of /repo/db/format/plain (packer.go, dumper.go).  encoding/json is a
    pair of functions on the version info (instantiated with the model of
    encoding/json of Json.v in PropsJson.v); the clock text is an argument. *)
From Verif Require Export Base NetIP IpNet Inf NetText Export.
From Verif Require Export Operate.
Open Scope nat_scope.

(* ------------------------------------------------------------------ *)
(** * bufio.Scanner (ScanLines, 64 KiB) *)

(** Lines of a text: split at \n; nothing after a final \n. *)
(* bufio.Scanner, used at db/format/plain/dumper.go:40 and db/format/memip/dumper.go:51 *)
Definition raw_lines (data : bytes) : list bytes :=
  let l := split x0a data in
  match rev l with [] :: r => rev r | _ => l end.
(** A line of 65536 bytes or more ends the scan (scanner.Err is never looked at). *)
(* bufio.Scanner, used at db/format/plain/dumper.go:40 and db/format/memip/dumper.go:51 *)
Fixpoint until_long (ls : list bytes) : list bytes :=
  match ls with
  | [] => []
  | l :: r => if (N.of_nat (length l) <? 65536)%N then l :: until_long r else []
  end.
(* bufio.Scanner, used at db/format/plain/dumper.go:40 and db/format/memip/dumper.go:51 *)
Definition scan_lines (data : bytes) : list bytes := map trim_cr (until_long (raw_lines data)).

(* ------------------------------------------------------------------ *)
(** * packer.go *)

(** strings.Replace(v, ",", "_", -1) *)
(* db/format/plain/packer.go:33 *)
Definition uncomma (v : bytes) : bytes := map (fun c => if byte_eqb c x2c then x5f else c) v.

(** db/format/plain/packer.go:31-35 replaceComma: cells i .. i+n-1 of the row's slice *)
Fixpoint comma_cells (h : heap) (s : slc) (i n : nat) : heap :=
  match n with
  | O => h
  | S k => comma_cells (hset h s i (uncomma (nth i (arr h (sArr s)) []))) s (S i) k
  end.

(** db/format/plain/packer.go:21-27: one line per row; the heap is changed on the way *)
Fixpoint pack_rows (h : heap) (rows : list hrow) : heap * bytes :=
  match rows with
  | [] => (h, [])
  | (n, s) :: r =>
      let h1 := comma_cells h s 0 (sLen s) in
      let line := net_string n ++ x09 :: join x2c (view h1 s) ++ [x0a] in
      let '(h2, rest) := pack_rows h1 r in
      (h2, line ++ rest)
  end.

Section Json.
Variable marshal : VersionInfo -> bytes.
Variable unmarshal : bytes -> option (option VersionInfo).   (* Some None for null *)

(** db/format/plain/packer.go:13-29 pack (writes to the buffer do not fail); [clock] is time.Now().String().
    Returns the text and the caller's dataset afterwards. *)
Definition pack (clock : bytes) (d : HData) : bytes * HData :=
  let '(h, body) := pack_rows (hHeap d) (hRows d) in
  (str "#### scan dump " ++ clock ++ str " ####" ++ [x0a]
   ++ str "#### " ++ marshal (hVersion d) ++ [x0a]
   ++ str "#### " ++ join x2c (hFields d) ++ [x0a]
   ++ body,
   mkH (hFields d) (hVersion d) (hRows d) h).

(* ------------------------------------------------------------------ *)
(** * dumper.go *)

(** db/format/plain/dumper.go:31-35 traversal *)
Record traversal := mkTrav { tLines : list bytes; tFields : list bytes; tVersion : option VersionInfo }.

(** s[5:] *)
(* db/format/plain/dumper.go:47,53 (too short: slice bounds panic) *)
Definition drop5 (l : bytes) : res bytes := if length l <? 5 then Panic else Ok (skipn 5 l).

(** db/format/plain/dumper.go:37-62 newDumper *)
Definition newDumper (data : bytes) : res traversal :=
  match scan_lines data with
  | [] | [_] => Ok (mkTrav [] [] None)
  | _ :: l1 :: rest =>
      let* j := drop5 l1 in
      match unmarshal j with
      | None => Err ErrJson
      | Some v =>
          match rest with
          | [] => Ok (mkTrav [] [] v)
          | l2 :: lines =>
              let* f := drop5 l2 in
              match v with
              | None => Panic                      (* t.Version.Count *)
              | Some _ => Ok (mkTrav lines (split x2c f) v)
              end
          end
      end
  end.

(** db/format/plain/dumper.go:81-100 parseLine; the map has the last assignment first *)
Definition parseLine (fields : list bytes) (line : bytes) : res (IPNet * list (bytes * bytes)) :=
  match split x09 line with
  | [a; b] =>
      match ParseCIDR a with
      | None => Err (ErrOther (str "invalid CIDR address"))
      | Some n =>
          let vs := split x2c b in
          if negb (length vs =? length fields) then Err (ErrOther (str "invalid line"))
          else Ok (n, rev (combine fields vs))
      end
  | _ => Err (ErrOther (str "invalid line"))
  end.

(** db/format/plain/dumper.go:113-136: the loop.  (Equal consecutive values share a slice.) *)
Fixpoint dump_loop (fields : list bytes) (values : list (bytes * bytes) -> res (list bytes)) (lines : list bytes)
  : res (list IpRaw) :=
  match lines with
  | [] => Ok []
  | line :: r =>
      let* ' (n, info) := parseLine fields line in
      let* vs := values info in
      let* last := LastIP n in
      if IsAllMask last then Ok [mkRaw n vs]
      else let* rest := dump_loop fields values r in Ok (mkRaw n vs :: rest)
  end.

(** db/format/plain/dumper.go:72-79 fieldToMap, 102-137 Dump, 18-29 dump *)
Definition dump (data : bytes) (ept : option Exporter) : res IpData :=
  let* t := newDumper data in
  match tVersion t with
  | None => Panic                                  (* t.Version.Count *)
  | Some v =>
      let fields := match ept with None => tFields t | Some e => eFields e end in
      let fm := map (fun f => (f, f)) (tFields t) in
      let* rows := dump_loop (tFields t)
        (fun info => match ept with
                     | Some e => Export e (Select fm fields) info
                     | None => Ok []
                     end) (tLines t) in
      Ok (mkData fields v rows)
  end.
End Json.

(** Model of /repo/db/field/operate (replace.go, district.go, line.go) and of
    /repo/db/field/data/load.go.  These functions write through the value slices
    of the rows, which may be shared between rows, so the dataset is modelled
    with a heap of backing arrays. *)
From Verif Require Import IpNet Inf Tables.
Open Scope nat_scope.

(* ------------------------------------------------------------------ *)
(** * Go slices of strings *)

(** A []string value: backing array (position in the heap) and length.  All
    slices of this code start at index 0 of their array; the capacity is the
    length of the array. *)
(* the FieldValues member of db/inf/intern.go:15-18 *)
Record slc := mkSlc { sArr : nat; sLen : nat }.
(* storage of the FieldValues of db/inf/intern.go:15-18 *)
Definition heap := list (list bytes).
(* storage of the FieldValues of db/inf/intern.go:15-18 *)
Definition arr (h : heap) (a : nat) : list bytes := nth a h [].

(** The elements s[0..len(s)-1]. *)
(* reading row.FieldValues, as in db/field/operate/line.go:25-40 *)
Definition view (h : heap) (s : slc) : list bytes := firstn (sLen s) (arr h (sArr s)).

(** s[i] = v *)
(* row.FieldValues[i] = v, as in db/field/operate/line.go:33 *)
Definition hset (h : heap) (s : slc) (i : nat) (v : bytes) : heap :=
  upd h (sArr s) (upd (arr h (sArr s)) i v).

(** append(s, v): in place when there is room, otherwise a new array with
    [grow n] spare cells (the growth policy of the Go runtime is left open). *)
(* append(row.FieldValues, v), as in db/field/operate/line.go:31 *)
Definition happend (grow : nat -> nat) (h : heap) (s : slc) (v : bytes) : heap * slc :=
  if sLen s <? length (arr h (sArr s))
  then (hset h s (sLen s) v, mkSlc (sArr s) (S (sLen s)))
  else (h ++ [view h s ++ v :: repeat [] (grow (sLen s))], mkSlc (length h) (S (sLen s))).

(** A dataset (db/inf/intern.go IpData, IpRaw) with its heap. *)
Notation hrow := (IPNet * slc)%type.
(* db/inf/intern.go:9-18 IpData, IpRaw, with the storage made explicit *)
Record HData := mkH { hFields : list bytes; hVersion : VersionInfo; hRows : list hrow; hHeap : heap }.

(** The dataset a reader sees. *)
(* db/inf/intern.go:9-18 IpData as read by the packers *)
Definition contents (d : HData) : IpData :=
  mkData (hFields d) (hVersion d) (map (fun r => mkRaw (fst r) (view (hHeap d) (snd r))) (hRows d)).

(* ------------------------------------------------------------------ *)
(** * Loops over the rows *)

(** What one iteration of [for k, row := range data.Ips] does to the values of
    its row: nothing, [row.FieldValues[i] = v] or [row.FieldValues =
    append(row.FieldValues, v); data.Ips[k] = row]. *)
(* bodies of the loops db/field/operate/line.go:25,61,107, db/field/operate/district.go:65, db/field/operate/replace.go:61,82 *)
Inductive act := Keep | Put (i : nat) (v : bytes) | App (v : bytes).

(** One iteration.  An assignment out of range panics. *)
(* bodies of the loops db/field/operate/line.go:25,61,107, db/field/operate/district.go:65, db/field/operate/replace.go:61,82 *)
Definition perform (grow : nat -> nat) (h : heap) (s : slc) (a : act) : res (heap * slc) :=
  match a with
  | Keep => Ok (h, s)
  | Put i v => if i <? sLen s then Ok (hset h s i v, s) else Panic
  | App v => Ok (happend grow h s v)
  end.

(** The loop; [body k net values] is the code of iteration k. *)
(* the loops db/field/operate/line.go:25,61,107, db/field/operate/district.go:65, db/field/operate/replace.go:61,82 *)
Fixpoint each_row (grow : nat -> nat) (body : nat -> IPNet -> list bytes -> res act)
         (k : nat) (h : heap) (rows : list hrow) : res (heap * list hrow) :=
  match rows with
  | [] => Ok (h, [])
  | (n, s) :: r =>
      let* a := body k n (view h s) in
      let* ' (h1, s1) := perform grow h s a in
      let* ' (h2, r2) := each_row grow body (S k) h1 r in
      Ok (h2, (n, s1) :: r2)
  end.

(* ------------------------------------------------------------------ *)
(** * data/load.go *)

(** bufio.Scanner lines: split at \n, drop a trailing \r; the empty rest after
    the last \n is not a line, but empty lines are skipped here anyway. *)
(* bufio.Scanner, used at db/field/data/load.go:14 *)
Definition trim_cr (l : bytes) : bytes :=
  match rev l with x0d :: r => rev r | _ => l end.

(** strings.SplitN(s, "\t", 2) when there is a tab: before and after it. *)
(* strings.SplitN, used at db/field/data/load.go:20 *)
Fixpoint cut (sep : byte) (s : bytes) : option (bytes * bytes) :=
  match s with
  | [] => None
  | c :: r => if byte_eqb c sep then Some ([], r)
              else match cut sep r with Some (a, b) => Some (c :: a, b) | None => None end
  end.

(** data/load.go:12-31 parseData.  Later lines override earlier ones.  (A line
    of 64 KiB would stop the scanner; the tables have none.) *)
Definition parseData (text : bytes) : list (bytes * bytes) :=
  fold_left (fun m l => match cut x09 (trim_cr l) with Some (k, v) => (k, v) :: m | None => m end)
            (split x0a text) [].

(** data/load.go:33-46 NormalizedMap after LoadDefault *)
Definition NormalizedMap : list (bytes * list (bytes * bytes)) :=
  [(fCity, parseData CityList); (fProvince, parseData ProvinceList); (fISP, parseData ISPList)].

(* ------------------------------------------------------------------ *)
(** * replace.go *)

(** db/field/operate/replace.go:75-91 ReplaceShortage, inner loop over the cells i..i+n-1 of one
    row; the cell is read when it is visited. *)
Fixpoint replace_cells (tab : nat -> option (list (bytes * bytes))) (h : heap) (s : slc)
         (i n : nat) : heap :=
  match n with
  | O => h
  | S k =>
      let h1 := match tab i with
                | Some m => match assoc (nth i (arr h (sArr s)) []) m with
                            | Some w => hset h s i w
                            | None => h
                            end
                | None => h
                end in
      replace_cells tab h1 s (S i) k
  end.

(** db/field/operate/replace.go:76-81 offsets *)
Definition table_at (tabs : list (bytes * list (bytes * bytes))) (fields : list bytes) (i : nat) :=
  match nth_error fields i with Some f => assoc f tabs | None => None end.

(** db/field/operate/replace.go:75-91 ReplaceShortage with NormalizedMap [tabs] *)
Definition ReplaceShortage (tabs : list (bytes * list (bytes * bytes))) (d : HData) : HData :=
  mkH (hFields d) (hVersion d) (hRows d)
      (fold_left (fun h r => replace_cells (table_at tabs (hFields d)) h (snd r) 0 (sLen (snd r)))
                 (hRows d) (hHeap d)).

(** db/field/operate/replace.go:13 mainIsp *)
Definition mainIsp : list bytes := [str "电信"; str "联通"; str "移动"; str "铁通"].

(** db/field/operate/replace.go:26-34: the index of the last field with this name, 0 if none *)
Fixpoint last_index (s : bytes) (l : list bytes) (i acc : nat) : nat :=
  match l with
  | [] => acc
  | x :: r => last_index s r (S i) (if bytes_eqb x s then i else acc)
  end.

(** db/field/operate/replace.go:15-22 asnMatchIsp; [m] lists the map in the order of iteration *)
Fixpoint asnMatchIsp (s : bytes) (m : list (bytes * list bytes)) : bytes :=
  match m with
  | [] => []
  | (k, v) :: r => if in_array s v then k else asnMatchIsp s r
  end.

(** db/field/operate/replace.go:45-52: the set of AS numbers of operator [isp] gets [asn] *)
Fixpoint add_asn (isp asn : bytes) (m : list (bytes * list bytes)) : list (bytes * list bytes) :=
  match m with
  | [] => [(isp, [asn])]
  | (k, v) :: r => if bytes_eqb k isp then (k, asn :: v) :: r else (k, v) :: add_asn isp asn r
  end.

(** db/field/operate/replace.go:38-54: mainIspAsnMap *)
Fixpoint collect_asn (h : heap) (pi pa : nat) (rows : list hrow) (m : list (bytes * list bytes))
  : res (list (bytes * list bytes)) :=
  match rows with
  | [] => Ok m
  | (_, s) :: r =>
      let* isp := idx (view h s) pi in
      if pa =? 0 then collect_asn h pi pa r m
      else
        let* asn := idx (view h s) pa in
        collect_asn h pi pa r (if in_array isp mainIsp then add_asn isp asn m else m)
  end.

(** db/field/operate/replace.go:25-72 TrimAsnIspDup.  Go iterates over the map in an unspecified
    order, possibly different at each row: [order k m] is the order used for
    row k. *)
Definition TrimAsnIspDup (order : nat -> list (bytes * list bytes) -> list (bytes * list bytes))
           (d : HData) : res HData :=
  let pi := last_index fISP (hFields d) 0 0 in
  let pa := last_index fAsn (hFields d) 0 0 in
  if pi =? 0 then Ok d
  else
    let* m := collect_asn (hHeap d) pi pa (hRows d) [] in
    if pa =? 0 then Ok d
    else
      let* ' (h, rows) := each_row (fun _ => 0)
        (fun k _ v =>
           let* isp := idx v pi in
           let* asn := idx v pa in
           if in_array isp mainIsp then Ok Keep
           else match asnMatchIsp asn (order k m) with
                | [] => Ok Keep
                | x => Ok (Put pi x)
                end) 0 (hHeap d) (hRows d) in
      Ok (mkH (hFields d) (hVersion d) rows h).

(** db/field/operate/replace.go:98-121 MergeNearNetwork, the loop with prev.r set; [same] is
    reflect.DeepEqual on the value slices (nil and empty not distinguished). *)
Fixpoint merge_loop (same : slc -> slc -> bool) (r : Range) (f : slc) (rows : list hrow)
  : res (list (Range * slc)) :=
  match rows with
  | [] => Ok [(r, f)]
  | (n, g) :: rest =>
      let fresh :=
        let* r2 := NewRange n in
        let* out := merge_loop same r2 g rest in
        Ok ((r, f) :: out) in
      if same f g then
        let* ' (ok, r2) := JoinIPNet r n in
        if ok then merge_loop same r2 f rest else fresh
      else fresh
  end.

(** db/field/operate/replace.go:123-131: each range is split into networks sharing its slice *)
Fixpoint merge_split (l : list (Range * slc)) : res (list hrow) :=
  match l with
  | [] => Ok []
  | (r, f) :: rest =>
      let* nets := IPNets r in
      let* out := merge_split rest in
      Ok (map (fun n => (n, f)) nets ++ out)
  end.

(** Version.Count = uint32(n) *)
(* db/field/operate/replace.go:133 *)
Definition set_count (v : VersionInfo) (n : nat) : VersionInfo :=
  mkVersion (vIpType v) (N.of_nat n mod 2 ^ 32)%N (vBuild v) (vVersion v) (vLanguages v) (vExtra v).

(** db/field/operate/replace.go:98-134 MergeNearNetwork: without rows the nil range is dereferenced *)
Definition MergeNearNetwork (d : HData) : res HData :=
  match hRows d with
  | [] => Panic
  | (n, f) :: rest =>
      let* r := NewRange n in
      let* rs := merge_loop (fun a b => strs_eqb (view (hHeap d) a) (view (hHeap d) b)) r f rest in
      let* rows := merge_split rs in
      Ok (mkH (hFields d) (set_count (hVersion d) (length rows)) rows (hHeap d))
  end.

(* ------------------------------------------------------------------ *)
(** * district.go *)

(** db/field/operate/district.go:54-77 AttachDistrict *)
Definition district_of (p : bytes) : bytes :=
  match p with
  | [] => []
  | _ => match assoc p provinceDistrict with Some x => x | None => [] end
  end.
Definition AttachDistrict (grow : nat -> nat) (d : HData) : res HData :=
  let off := offset_of fDistrict (hFields d) in
  let fields := match off with None => hFields d ++ [fDistrict] | Some _ => hFields d end in
  match offset_of fProvince fields with
  | None => Ok (mkH fields (hVersion d) (hRows d) (hHeap d))
  | Some pp =>
      let* ' (h, rows) := each_row grow
        (fun _ _ v =>
           let* p := idx v pp in
           Ok match off with None => App (district_of p) | Some i => Put i (district_of p) end)
        0 (hHeap d) (hRows d) in
      Ok (mkH fields (hVersion d) rows h)
  end.

(* ------------------------------------------------------------------ *)
(** * line.go *)

(* db/field/operate/line.go:27,109 *)
Definition china : bytes := str "中国".
(** db/field/operate/line.go:80-91: normalisation of the line *)
Definition pick_line (l : bytes) : bytes :=
  let p := hd [] (split x2f l) in
  if negb (is_nil p) && negb (bytes_eqb p (str "电信")) && negb (bytes_eqb p (str "联通"))
     && negb (bytes_eqb p (str "移动"))
  then if bytes_eqb p (str "铁通") then str "移动" else str "电信"
  else p.
(** db/field/operate/line.go:74-93 queryLine *)
Definition queryLine (q : bytes -> res IpInfo) (n : IPNet) : res bytes :=
  match q (nIP n) with
  | Ok i => Ok (pick_line (iLine i))
  | Err _ => Ok []
  | Panic => Panic
  | OutOfFuel => OutOfFuel
  end.

Definition add_extra (v : VersionInfo) (x : bytes) : VersionInfo :=
  mkVersion (vIpType v) (vCount v) (vBuild v) (vVersion v) (vLanguages v) (vExtra v ++ [x]).

(** db/field/operate/line.go:25-28: the line looked up for one row *)
Definition row_line (q : bytes -> res IpInfo) (pc : nat) (n : IPNet) (v : list bytes) : res bytes :=
  let* c := idx v pc in
  if bytes_eqb c china then queryLine q n else Ok [].

(** db/field/operate/line.go:13-37 AttachLineByCidr; [ver] is the formatted version of the line database *)
Definition AttachLineByCidr (grow : nat -> nat) (q : bytes -> res IpInfo) (ver : bytes) (d : HData)
  : res HData :=
  let version := add_extra (hVersion d) ver in
  let off := offset_of fLine (hFields d) in
  let fields := match off with None => hFields d ++ [fLine] | Some _ => hFields d end in
  match offset_of fCountry fields with
  | None => Ok (mkH fields version (hRows d) (hHeap d))
  | Some pc =>
      let* ' (h, rows) := each_row grow
        (fun _ n v =>
           let* l := row_line q pc n v in
           Ok match off with None => App l | Some i => Put i l end)
        0 (hHeap d) (hRows d) in
      Ok (mkH fields version rows h)
  end.

(** db/field/operate/line.go:95-117 ReplaceLineByCidr *)
Definition ReplaceLineByCidr (q : bytes -> res IpInfo) (ver : bytes) (d : HData) : res HData :=
  let version := add_extra (hVersion d) ver in
  match offset_of fISP (hFields d), offset_of fCountry (hFields d) with
  | Some pi, Some pc =>
      let* ' (h, rows) := each_row (fun _ => 0)
        (fun _ n v =>
           let* l := row_line q pc n v in
           Ok (if is_nil l then Keep else Put pi l))
        0 (hHeap d) (hRows d) in
      Ok (mkH (hFields d) version rows h)
  | _, _ => Ok (mkH (hFields d) version (hRows d) (hHeap d))
  end.

(** db/field/operate/line.go:39-72 AttachLineByAsn.  When there is no line column yet the asn
    offset keeps its initial value 0. *)
Definition AttachLineByAsn (grow : nat -> nat) (asnLine : list (bytes * bytes)) (ver : bytes) (d : HData)
  : res HData :=
  let version := add_extra (hVersion d) ver in
  if negb (in_array fAsn (hFields d)) then Ok (mkH (hFields d) version (hRows d) (hHeap d))
  else
    let added := negb (in_array fLine (hFields d)) in
    let fields := if added then hFields d ++ [fLine] else hFields d in
    let lineOffset := if added then length fields - 1 else last_index fLine fields 0 0 in
    let asnOffset := if added then 0 else last_index fAsn fields 0 0 in
    let* ' (h, rows) := each_row grow
      (fun _ _ v =>
         let* asn := idx v asnOffset in
         match assoc asn asnLine with
         | Some line =>
             Ok (if added then App line else if is_nil line then Put lineOffset line else Keep)
         | None => Ok Keep
         end) 0 (hHeap d) (hRows d) in
    Ok (mkH fields version rows h).

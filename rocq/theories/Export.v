(** Model of /repo/db/field/export/export.go, the helper db/field/fields.go:73-88
    and the ipdb dumper /repo/db/format/ipdb/dumper.go. *)
From Verif Require Export Base NetIP IpNet Inf Ipdb.

(** export.go:25-32 _Filter *)
Record Filter := mkFilter {
  fKeyOffset : nat; fNot : bool; fValues : list bytes; fOffsets : list nat }.

(** export.go:34-37 Exporter *)
Record Exporter := mkExporter { eFields : list bytes; eFilters : list Filter }.

(** export.go:43-54 offsets: for every key the first position; unknown keys are skipped. *)
Definition offsets (fields keys : list bytes) : list nat :=
  flat_map (fun k => match offset_of k fields with Some i => [i] | None => [] end) keys.

(** export.go:56-63 offset is Base.offset_of (None for -1). *)

(** export.go:65-84 buildFilter (None for nil).  HasPrefix(s, "!") and s[1:]. *)
Definition buildFilter (efields : list bytes) (kc : bytes) (fields : list bytes) : option Filter :=
  match split x3d kc with                                    (* "=" *)
  | [k; c] =>
      match offset_of k efields with
      | None => None
      | Some i =>
          match c with
          | x21 :: c' => Some (mkFilter i true (split x2f c') (offsets efields fields))   (* "!" "/" *)
          | _ => Some (mkFilter i false (split x2f c) (offsets efields fields))
          end
      end
  | _ => None
  end.

(** export.go:86-92 match *)
Definition fmatch (f : Filter) (value : bytes) : bool :=
  let b := in_array value (fValues f) in if fNot f then negb b else b.

(** export.go:94-110 extract *)
Definition extract (f : Filter) (data : list bytes) : list bytes :=
  match nth_error data (fKeyOffset f) with
  | None => data
  | Some v =>
      if fmatch f v then
        fold_left (fun ret o => match nth_error data o with Some x => upd ret o x | None => ret end)
                  (fOffsets f) (repeat [] (length data))
      else data
  end.

(** db/field/fields.go:73-76 Pair *)
Record Pair := mkPair { pExt : bytes; pIntern : bytes }.

(** export.go:112-126 Select (a Go map has one entry per key, so the range loop is
    a lookup; the zero Pair for unknown names). *)
Definition Select (fMap : list (bytes * bytes)) (fields : list bytes) : list Pair :=
  map (fun f => match assoc f fMap with Some v => mkPair f v | None => mkPair [] [] end) fields.

(** export.go:128-136 remapKey: assigns ret[k]; panics when there are more pairs than fields. *)
Fixpoint remap_loop (k : nat) (fieldMap : list Pair) (data : list (bytes * bytes)) (ret : list bytes)
  : res (list bytes) :=
  match fieldMap with
  | [] => Ok ret
  | p :: r =>
      match assoc (pIntern p) data with
      | None => remap_loop (S k) r data ret
      | Some f => if (k <? length ret)%nat then remap_loop (S k) r data (upd ret k f) else Panic
      end
  end.
Definition remapKey (e : Exporter) (fieldMap : list Pair) (data : list (bytes * bytes)) : res (list bytes) :=
  remap_loop 0 fieldMap data (repeat [] (length (eFields e))).

(** export.go:138-147 Export *)
Definition Export (e : Exporter) (fieldMap : list Pair) (data : list (bytes * bytes)) : res (list bytes) :=
  let* ret := remapKey e fieldMap data in
  Ok (fold_left (fun ret f => extract f ret) (eFilters e) ret).

(** export.go:162-184: one group after the first (None when it is skipped). *)
Definition parseGroup (efields : list bytes) (group : bytes) : option Filter :=
  match split x2c group with                                 (* "," *)
  | [] => None
  | f0 :: fs =>
      match split x3a f0 with                                (* ":" *)
      | [kc; v] =>
          let fields := v :: fs in
          if forallb (fun f => in_array f efields) fields then buildFilter efields kc fields else None
      | _ => None
      end
  end.

(** export.go:149-186 ParseRule (None for the nil exporter of the empty rule). *)
Definition ParseRule (rule : bytes) : option Exporter :=
  match rule with
  | [] => None
  | _ =>
      match split x7c rule with                              (* "|" *)
      | [] => None                                           (* Split never returns no groups *)
      | g0 :: gs =>
          let efields := split x2c g0 in
          Some (mkExporter efields
                 (flat_map (fun g => match parseGroup efields g with Some f => [f] | None => [] end) gs))
      end
  end.

(** db/field/fields.go:78-88 ExtKeys: the inner loop ranges over a Go map; its
    order is the order of the list here (lemma [ExtKeys_order] shows that it does
    not matter for maps with distinct values). *)
Definition ExtKeys (f : list (bytes * bytes)) (internFields : list bytes) : list bytes :=
  flat_map (fun v => map fst (filter (fun kv => bytes_eqb v (snd kv)) f)) internFields.

(** export.go:206-218: the values of a row; nil exporter: one value per field. *)
Definition row_values (fieldMap : list (bytes * bytes)) (ept : option Exporter) (fields : list bytes)
  (info : list (bytes * bytes)) : res (list bytes) :=
  match ept with
  | Some e => Export e (Select fieldMap fields) info
  | None =>
      Ok (map (fun v => match assoc v fieldMap with
                        | None => []
                        | Some k => match assoc k info with Some f => f | None => [] end
                        end) fields)
  end.

(** export.go:201-240: the loop, one round per unit of fuel.  Equal consecutive
    values share one slice in Go (export.go:220-222), which is not visible here. *)
Section Build.
Variable find : bytes -> res (IPNet * list (bytes * bytes)).
Variable values : list (bytes * bytes) -> res (list bytes).
Fixpoint build_loop (fuel : nat) (marker : bytes) : res (list IpRaw) :=
  match fuel with
  | O => OutOfFuel
  | S k =>
      let* ' (n, info) := find marker in
      let* vs := values info in
      let* last := LastIP n in
      if IsAllMask last then Ok [mkRaw n vs]
      else
        let* next := NextStart n in
        let* rest := build_loop k next in Ok (mkRaw n vs :: rest)
  end.
End Build.

(** export.go:188-243 BuildIPData: fields and rows (the Version member is filled by
    the caller). *)
Definition out_fields (fieldMap : list (bytes * bytes)) (fields : list bytes) (ept : option Exporter) : list bytes :=
  match ept with None => ExtKeys fieldMap fields | Some e => eFields e end.
Definition BuildIPData (fuel : nat) (fieldMap : list (bytes * bytes)) (fields : list bytes)
  (ept : option Exporter) (version : VersionInfo)
  (find : bytes -> res (IPNet * list (bytes * bytes))) : res (list bytes * list IpRaw) :=
  let ofs := out_fields fieldMap fields ept in
  let marker := if IsIpV6 version then IPv6zero else IPv4zero in
  let* rows := build_loop find (row_values fieldMap ept ofs) fuel marker in
  Ok (ofs, rows).

(** db/format/ipdb/dumper.go:9-24 dump *)
Definition dump (unmarshal : bytes -> option MetaData) (fuel : nat) (data : bytes) (ept : option Exporter) : res IpData :=
  let* db := newReaderFromBytes unmarshal data in
  let* ' (fields, rows) :=
    BuildIPData fuel CommonFieldsMap (mFields (rMeta db)) ept (version db)
      (fun ip => findMap db ip (str "CN")) in
  Ok (mkData fields (version db) rows).

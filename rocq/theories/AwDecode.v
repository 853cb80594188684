(** Model of /repo/db/format/awdb/decoder.go.
    Offsets and sizes are Go uint values; they stay far below 2^64 (offsets are
    checked against the buffer length, sizes are below 2^25), so they are plain
    numbers here.  Decoding targets are those used by the package: an untyped
    value (interface{}), and the members of struct Metadata (db/format/awdb/fields.go:28-38).
    Errors carry no text. *)
From Verif Require Export Base.
Open Scope N_scope.

(** db/format/awdb/decoder.go:15-41 data types *)
Definition tPointer := 1.  Definition tString := 2.  Definition tFloat64 := 3.  Definition tBytes := 4.
Definition tUint16 := 5.   Definition tUint32 := 6.  Definition tMap := 7.      Definition tInt32 := 8.
Definition tUint64 := 9.   Definition tUint128 := 10. Definition tSlice := 11.  Definition tBool := 14.
Definition tFloat32 := 15.

(** A decoded interface{} value.  Strings and byte strings both become a Go
    []byte (db/format/awdb/decoder.go:351-367); floats are kept as their bits.  A map is the list
    of its assignments in order (a later one to the same key wins). *)
Inductive value :=
| VBool (b : bool) | VStr (s : bytes) | VBytes (s : bytes) | VF32 (n : N) | VF64 (n : N)
| VInt (z : Z) | VUint (n : N) | VBig (n : N)
| VMap (m : list (bytes * value)) | VList (l : list value).

(** Kinds of decoding targets: interface{}, uint, string, map[string]string, []string. *)
(* reflect kinds of result in db/format/awdb/decoder.go:159-418; those of db/format/awdb/fields.go:28-38 and of interface{} *)
Inductive kind := KAny | KUint | KString | KMapString | KListString.
(* case reflect.Interface, db/format/awdb/decoder.go:159-418 *)
Definition any (k : kind) : bool := match k with KAny => true | _ => false end.
(* db/format/awdb/decoder.go:351-367 *)
Definition kstring (k : kind) : bool := match k with KAny | KString => true | _ => false end.
(* db/format/awdb/decoder.go:369-397 *)
Definition kuint (k : kind) : bool := match k with KAny | KUint => true | _ => false end.

Section Decoder.
Variable buf : bytes.
(* len(d.buffer), db/format/awdb/decoder.go:59-157 *)
Definition blen : N := N.of_nat (length buf).

(** d.buffer[i] and d.buffer[lo:hi] *)
(* db/format/awdb/decoder.go:59-109 (out of range panics) *)
Definition at_ (i : N) : res byte := idx buf (N.to_nat i).
(* db/format/awdb/decoder.go:424-545 (out of range panics) *)
Definition cut (lo hi : N) : res bytes := slice buf (N.to_nat lo) (N.to_nat hi).

(** db/format/awdb/decoder.go:650-656 uintFromBytes *)
Definition uintFromBytes (prefix : N) (bs : bytes) : N := fold_left (fun v b => v * 256 + b2n b) bs prefix.

(** db/format/awdb/decoder.go:80-109 sizeFromCtrlByte *)
Definition sizeFromCtrlByte (ctrl : N) (offset typeNum : N) : res (N * N) :=
  let size := ctrl mod 32 in
  if typeNum =? 0 then Ok (size, offset)
  else if size <? 29 then Ok (size, offset)
  else
    let newOffset := offset + (size - 28) in
    if blen <? newOffset then Err ErrOffset
    else if size =? 29 then let* b := at_ offset in Ok (29 + b2n b, offset + 1)
    else
      let* bs := cut offset newOffset in
      if size =? 30 then Ok (285 + uintFromBytes 0 bs, newOffset)
      else Ok (uintFromBytes 0 bs + 65821, newOffset).

(** db/format/awdb/decoder.go:59-78 decodeCtrlData: type, size, new offset.  The extended type is
    a byte sum and wraps. *)
Definition decodeCtrlData (offset : N) : res (N * N * N) :=
  let newOffset := offset + 1 in
  if blen <=? offset then Err ErrOffset
  else
    let* c := at_ offset in
    let ctrl := b2n c in
    let typeNum := ctrl / 32 in
    let* ' (typeNum, newOffset) :=
      if typeNum =? 0 then
        if blen <=? newOffset then Err ErrOffset
        else let* e := at_ newOffset in Ok ((b2n e + 7) mod 256, newOffset + 1)
      else Ok (typeNum, newOffset) in
    let* ' (size, newOffset) := sizeFromCtrlByte ctrl newOffset typeNum in
    Ok (typeNum, size, newOffset).

(** db/format/awdb/decoder.go:491-524 decodePointer *)
Definition decodePointer (size offset : N) : res (N * N) :=
  let pointerSize := (size / 8) mod 4 + 1 in
  let newOffset := offset + pointerSize in
  if blen <? newOffset then Err ErrOffset
  else
    let* bs := cut offset newOffset in
    let prefix := if pointerSize =? 4 then 0 else size mod 8 in
    let unpacked := uintFromBytes prefix bs in
    let shift := if pointerSize =? 2 then 2048 else if pointerSize =? 3 then 526336 else 0 in
    Ok (unpacked + shift, newOffset).

(** db/format/awdb/decoder.go:662-683 decodeKey: unbounded recursion through pointers, so fuel. *)
Fixpoint decodeKey (fuel : nat) (offset : N) : res (bytes * N) :=
  match fuel with
  | O => OutOfFuel
  | S k =>
      let* ' (typeNum, size, dataOffset) := decodeCtrlData offset in
      if typeNum =? tPointer then
        let* ' (pointer, ptrOffset) := decodePointer size dataOffset in
        let* ' (key, _) := decodeKey k pointer in
        Ok (key, ptrOffset)
      else if negb (typeNum =? tString) then Err ErrInvalidDb
      else
        let newOffset := dataOffset + size in
        if blen <? newOffset then Err ErrOffset
        else let* bs := cut dataOffset newOffset in Ok (bs, newOffset)
  end.

(** db/format/awdb/decoder.go:443-450 decodeInt: int32 arithmetic *)
Definition int32_of (bs : bytes) : Z :=
  let v := uintFromBytes 0 bs mod 2 ^ 32 in
  if v <? 2 ^ 31 then Z.of_N v else (Z.of_N v - 2 ^ 32)%Z.

(** db/format/awdb/decoder.go:119-157 and the unmarshal functions it calls: types whose size is
    the number of bytes *)
Definition decodeSized (kd : kind) (typeNum size offset : N) : res (value * N) :=
  let newOffset := offset + size in
  if blen <? newOffset then Err ErrOffset
  else if typeNum =? tBytes then
    let* bs := cut offset newOffset in
    if any kd then Ok (VBytes bs, newOffset) else Err ErrInvalidDb
  else if typeNum =? tFloat32 then
    if negb (size =? 4) then Err ErrInvalidDb
    else let* bs := cut offset newOffset in
         if any kd then Ok (VF32 (uintFromBytes 0 bs), newOffset) else Err ErrInvalidDb
  else if typeNum =? tFloat64 then
    if negb (size =? 8) then Err ErrInvalidDb
    else let* bs := cut offset newOffset in
         if any kd then Ok (VF64 (uintFromBytes 0 bs), newOffset) else Err ErrInvalidDb
  else if typeNum =? tInt32 then
    if 4 <? size then Err ErrInvalidDb
    else let* bs := cut offset newOffset in
         if any kd then Ok (VInt (int32_of bs), newOffset)
         else if kuint kd then Ok (VUint (Z.to_N (int32_of bs mod 2 ^ 64)%Z), newOffset)   (* uint64(value) *)
         else Err ErrInvalidDb
  else if typeNum =? tString then
    let* bs := cut offset newOffset in
    if kstring kd then Ok (VStr bs, newOffset) else Err ErrInvalidDb
  else if typeNum =? tUint16 then
    if 2 <? size then Err ErrInvalidDb
    else let* bs := cut offset newOffset in
         if kuint kd then Ok (VUint (uintFromBytes 0 bs), newOffset) else Err ErrInvalidDb
  else if typeNum =? tUint32 then
    if 4 <? size then Err ErrInvalidDb
    else let* bs := cut offset newOffset in
         if kuint kd then Ok (VUint (uintFromBytes 0 bs), newOffset) else Err ErrInvalidDb
  else if typeNum =? tUint64 then
    if 8 <? size then Err ErrInvalidDb
    else let* bs := cut offset newOffset in
         if kuint kd then Ok (VUint (uintFromBytes 0 bs), newOffset) else Err ErrInvalidDb
  else if typeNum =? tUint128 then
    if 16 <? size then Err ErrInvalidDb
    else let* bs := cut offset newOffset in
         if any kd then Ok (VBig (uintFromBytes 0 bs), newOffset) else Err ErrInvalidDb
  else Err ErrInvalidDb.

(** db/format/awdb/decoder.go:452-489 decodeMap, 526-541 decodeSlice: the loops *)
Section Loops.
Variable kf : nat.                                (* fuel for keys *)
Variable dec : N -> res (value * N).
(* db/format/awdb/decoder.go:452-489 decodeMap *)
Fixpoint map_loop (n : nat) (offset : N) : res (list (bytes * value) * N) :=
  match n with
  | O => Ok ([], offset)
  | S k =>
      let* ' (key, o1) := decodeKey kf offset in
      let* ' (v, o2) := dec o1 in
      let* ' (m, o3) := map_loop k o2 in
      Ok ((key, v) :: m, o3)
  end.
(* db/format/awdb/decoder.go:526-541 decodeSlice *)
Fixpoint list_loop (n : nat) (offset : N) : res (list value * N) :=
  match n with
  | O => Ok ([], offset)
  | S k =>
      let* ' (v, o1) := dec offset in
      let* ' (l, o2) := list_loop k o1 in
      Ok (v :: l, o2)
  end.
End Loops.

(** db/format/awdb/decoder.go:43-57 decode, 111-157 decodeFromType.  [lvl] is 513 - depth: depth
    512 is the last one allowed. *)
Fixpoint decode (kf lvl : nat) (kd : kind) (offset : N) : res (value * N) :=
  match lvl with
  | O => Err ErrInvalidDb
  | S l =>
      let* ' (typeNum, size, newOffset) := decodeCtrlData offset in
      if typeNum =? tBool then
        if 1 <? size then Err ErrInvalidDb
        else if any kd then Ok (VBool (negb (size =? 0)), newOffset) else Err ErrInvalidDb
      else if typeNum =? tMap then
        match kd with
        | KAny => let* ' (m, o) := map_loop kf (decode kf l KAny) (N.to_nat size) newOffset in Ok (VMap m, o)
        | KMapString => let* ' (m, o) := map_loop kf (decode kf l KString) (N.to_nat size) newOffset in Ok (VMap m, o)
        | _ => Err ErrInvalidDb
        end
      else if typeNum =? tPointer then
        let* ' (pointer, o) := decodePointer size newOffset in
        let* ' (v, _) := decode kf l kd pointer in
        Ok (v, o)
      else if typeNum =? tSlice then
        match kd with
        | KAny => let* ' (m, o) := list_loop (decode kf l KAny) (N.to_nat size) newOffset in Ok (VList m, o)
        | KListString => let* ' (m, o) := list_loop (decode kf l KString) (N.to_nat size) newOffset in Ok (VList m, o)
        | _ => Err ErrInvalidDb
        end
      else decodeSized kd typeNum size newOffset
  end.
Definition max_depth : nat := 513.

(** db/format/awdb/decoder.go:688-711 nextValueOffset: tail recursion on the number of values
    still to skip; fuel, since every control byte can add to that number. *)
Fixpoint nextValueOffset (fuel : nat) (offset numberToSkip : N) : res N :=
  match fuel with
  | O => OutOfFuel
  | S k =>
      if numberToSkip =? 0 then Ok offset
      else
        let* ' (typeNum, size, offset) := decodeCtrlData offset in
        if typeNum =? tPointer then
          let* ' (_, offset) := decodePointer size offset in nextValueOffset k offset (numberToSkip - 1)
        else if typeNum =? tMap then nextValueOffset k offset (numberToSkip + 2 * size - 1)
        else if typeNum =? tSlice then nextValueOffset k offset (numberToSkip + size - 1)
        else if typeNum =? tBool then nextValueOffset k offset (numberToSkip - 1)
        else nextValueOffset k (offset + size) (numberToSkip - 1)
  end.

(** db/format/awdb/fields.go:28-38 Metadata (binary format versions and description are not used
    by the package and left out of the record, but decoded) *)
Record metadata := mkAwMeta {
  aBuild : N; aType : bytes; aIPVersion : N; aLanguages : list bytes; aNodeCount : N; aRecordSize : N }.
Definition aw_meta0 : metadata := mkAwMeta 0 [] 0 [] 0 0.

Definition the_uint (v : value) : N := match v with VUint n => n | _ => 0 end.
Definition the_str (v : value) : bytes := match v with VStr s => s | _ => [] end.
Definition the_strs (v : value) : list bytes := match v with VList l => map the_str l | _ => [] end.

(** The member of Metadata with that tag: its kind and the assignment. *)
(* db/format/awdb/fields.go:28-38, looked up at db/format/awdb/decoder.go:548-629 *)
Definition meta_field (key : bytes) : option (kind * (metadata -> value -> metadata)) :=
  if bytes_eqb key (str "binary_format_major_version") then Some (KUint, fun m _ => m)
  else if bytes_eqb key (str "binary_format_minor_version") then Some (KUint, fun m _ => m)
  else if bytes_eqb key (str "build_epoch") then
    Some (KUint, fun m v => mkAwMeta (the_uint v) (aType m) (aIPVersion m) (aLanguages m) (aNodeCount m) (aRecordSize m))
  else if bytes_eqb key (str "database_type") then
    Some (KString, fun m v => mkAwMeta (aBuild m) (the_str v) (aIPVersion m) (aLanguages m) (aNodeCount m) (aRecordSize m))
  else if bytes_eqb key (str "description") then Some (KMapString, fun m _ => m)
  else if bytes_eqb key (str "ip_version") then
    Some (KUint, fun m v => mkAwMeta (aBuild m) (aType m) (the_uint v) (aLanguages m) (aNodeCount m) (aRecordSize m))
  else if bytes_eqb key (str "languages") then
    Some (KListString, fun m v => mkAwMeta (aBuild m) (aType m) (aIPVersion m) (the_strs v) (aNodeCount m) (aRecordSize m))
  else if bytes_eqb key (str "node_count") then
    Some (KUint, fun m v => mkAwMeta (aBuild m) (aType m) (aIPVersion m) (aLanguages m) (the_uint v) (aRecordSize m))
  else if bytes_eqb key (str "record_size") then
    Some (KUint, fun m v => mkAwMeta (aBuild m) (aType m) (aIPVersion m) (aLanguages m) (aNodeCount m) (the_uint v))
  else None.

(** db/format/awdb/decoder.go:548-591 decodeStruct: the loop over the entries.  [sf] is the fuel
    for skipping unknown members. *)
Fixpoint struct_loop (kf sf lvl : nat) (n : nat) (offset : N) (m : metadata) : res (metadata * N) :=
  match n with
  | O => Ok (m, offset)
  | S k =>
      let* ' (key, o1) := decodeKey kf offset in
      match meta_field key with
      | None => let* o2 := nextValueOffset sf o1 1 in struct_loop kf sf lvl k o2 m
      | Some (kd, set) =>
          let* ' (v, o2) := decode kf lvl kd o1 in struct_loop kf sf lvl k o2 (set m v)
      end
  end.

(** decode of the metadata struct: a map, or pointers to one *)
(* db/format/awdb/decoder.go:43-57,296-330,548-629 for the target *Metadata *)
Fixpoint decodeMeta (kf sf lvl : nat) (offset : N) : res metadata :=
  match lvl with
  | O => Err ErrInvalidDb
  | S l =>
      let* ' (typeNum, size, newOffset) := decodeCtrlData offset in
      if typeNum =? tMap then
        let* ' (m, _) := struct_loop kf sf l (N.to_nat size) newOffset aw_meta0 in Ok m
      else if typeNum =? tPointer then
        let* ' (pointer, _) := decodePointer size newOffset in decodeMeta kf sf l pointer
      else Err ErrInvalidDb
  end.
End Decoder.

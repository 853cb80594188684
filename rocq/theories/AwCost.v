(** What decoding an awdb value asks for on the way: the decoder of AwDecode.v with a record of
    its requests for memory and of the pointers it follows (/repo/db/format/awdb/decoder.go).
    Numbers, booleans and the fixed parts of values are not recorded. *)
From Verif Require Import Base AwDecode.
Open Scope N_scope.

(** A map or a slice made for that many elements, a copy of that many bytes, a pointer
    followed. *)
(* db/format/awdb/decoder.go:312,459 (maps), 532 (slices), 426,544 (texts and byte strings), 484 (keys), 322-329,667-674 (pointers) *)
Inductive event := AskMap (n : N) | AskList (n : N) | AskBytes (n : N) | Follow (p : N).

(** A computation with its events in order. *)
(* no counterpart in the code: bookkeeping of db/format/awdb/decoder.go:43-711 *)
Definition traced (A : Type) : Type := list event * res A.
(* no counterpart in the code: sequencing in db/format/awdb/decoder.go:43-711, an error ends it *)
Definition tbind {A B} (x : traced A) (f : A -> traced B) : traced B :=
  match snd x with
  | Ok a => (fst x ++ fst (f a), snd (f a))
  | Err e => (fst x, Err e)
  | Panic => (fst x, Panic)
  | OutOfFuel => (fst x, OutOfFuel)
  end.
(* no counterpart in the code: a step of db/format/awdb/decoder.go:43-711 that asks for nothing *)
Definition quiet {A} (r : res A) : traced A := ([], r).
(* no counterpart in the code: one request of db/format/awdb/decoder.go:43-711 *)
Definition ask (e : event) : traced unit := ([e], Ok tt).

Section Decoder.
Variable buf : bytes.

(** db/format/awdb/decoder.go:133-157: the size is checked against the buffer first (133), then
    texts and byte strings are copied (426, 544). *)
Definition decodeSizedT (kd : kind) (typeNum size offset : N) : traced (value * N) :=
  (if (blen buf <? offset + size) then []
   else if (typeNum =? tBytes) || (typeNum =? tString) then [AskBytes size] else [],
   decodeSized buf kd typeNum size offset).

(** db/format/awdb/decoder.go:662-683 decodeKey: keys are followed through pointers too; the bytes
    themselves are not copied here. *)
Fixpoint decodeKeyT (fuel : nat) (offset : N) : traced (bytes * N) :=
  match fuel with
  | O => quiet OutOfFuel
  | S k =>
      tbind (quiet (decodeCtrlData buf offset)) (fun ' (typeNum, size, dataOffset) =>
      if typeNum =? tPointer then
        tbind (quiet (decodePointer buf size dataOffset)) (fun ' (pointer, ptrOffset) =>
        tbind (ask (Follow pointer)) (fun _ =>
        tbind (decodeKeyT k pointer) (fun ' (key, _) =>
        quiet (Ok (key, ptrOffset)))))
      else quiet (
        if negb (typeNum =? tString) then Err ErrInvalidDb
        else
          let newOffset := dataOffset + size in
          if blen buf <? newOffset then Err ErrOffset
          else let* bs := cut buf dataOffset newOffset in Ok (bs, newOffset)))
  end.

Section Loops.
Variable kf : nat.
Variable dec : N -> traced (value * N).
(** db/format/awdb/decoder.go:467-488 decodeMap, the loop: the key is copied after the value *)
Fixpoint map_loopT (n : nat) (offset : N) : traced (list (bytes * value) * N) :=
  match n with
  | O => quiet (Ok ([], offset))
  | S k =>
      tbind (decodeKeyT kf offset) (fun ' (key, o1) =>
      tbind (dec o1) (fun ' (v, o2) =>
      tbind (ask (AskBytes (N.of_nat (length key)))) (fun _ =>
      tbind (map_loopT k o2) (fun ' (m, o3) =>
      quiet (Ok ((key, v) :: m, o3))))))
  end.
(** db/format/awdb/decoder.go:533-540 decodeSlice, the loop *)
Fixpoint list_loopT (n : nat) (offset : N) : traced (list value * N) :=
  match n with
  | O => quiet (Ok ([], offset))
  | S k =>
      tbind (dec offset) (fun ' (v, o1) =>
      tbind (list_loopT k o1) (fun ' (l, o2) =>
      quiet (Ok (v :: l, o2))))
  end.
End Loops.

(** db/format/awdb/decoder.go:43-57 decode, 111-157 decodeFromType: as [decode] in AwDecode.v; maps
    are made at 312 and 459, slices at 532, before their first element is looked at. *)
Fixpoint decodeT (kf lvl : nat) (kd : kind) (offset : N) : traced (value * N) :=
  match lvl with
  | O => quiet (Err ErrInvalidDb)
  | S l =>
      tbind (quiet (decodeCtrlData buf offset)) (fun ' (typeNum, size, newOffset) =>
      if typeNum =? tBool then
        quiet (if 1 <? size then Err ErrInvalidDb
               else if any kd then Ok (VBool (negb (size =? 0)), newOffset) else Err ErrInvalidDb)
      else if typeNum =? tMap then
        let go kd' := tbind (ask (AskMap size)) (fun _ =>
                      tbind (map_loopT kf (decodeT kf l kd') (N.to_nat size) newOffset) (fun ' (m, o) =>
                      quiet (Ok (VMap m, o)))) in
        match kd with
        | KAny => go KAny
        | KMapString => go KString
        | _ => quiet (Err ErrInvalidDb)
        end
      else if typeNum =? tPointer then
        tbind (quiet (decodePointer buf size newOffset)) (fun ' (pointer, o) =>
        tbind (ask (Follow pointer)) (fun _ =>
        tbind (decodeT kf l kd pointer) (fun ' (v, _) =>
        quiet (Ok (v, o)))))
      else if typeNum =? tSlice then
        let go kd' := tbind (ask (AskList size)) (fun _ =>
                      tbind (list_loopT (decodeT kf l kd') (N.to_nat size) newOffset) (fun ' (m, o) =>
                      quiet (Ok (VList m, o)))) in
        match kd with
        | KAny => go KAny
        | KListString => go KString
        | _ => quiet (Err ErrInvalidDb)
        end
      else decodeSizedT kd typeNum size newOffset)
  end.
End Decoder.

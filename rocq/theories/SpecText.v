(** Specification vocabulary for the text formats (C31-C33). *)
From Verif Require Export Spec Inf SpecIpdb SpecExport SpecOperate.
Open Scope N_scope.

(** Commas become underscores. *)
Definition underscored (v : bytes) : bytes := map (fun c => if byte_eqb c (x2c) then x5f else c) v.

(** The block ends at the last address of its family. *)
Definition ends_family (b : block) : Prop :=
  is_v4 (base b) /\ base b + 2 ^ logsz b = v4base + 2 ^ 32 \/ base b + 2 ^ logsz b = 2 ^ 128.

(** Rows up to and including the first one whose block ends its family. *)
Inductive upto_end {A} : list (A * block) -> list (A * block) -> Prop :=
| ue_nil : upto_end [] []
| ue_stop a b r : ends_family b -> upto_end ((a, b) :: r) [(a, b)]
| ue_go a b r out : ~ ends_family b -> upto_end r out -> upto_end ((a, b) :: r) ((a, b) :: out).

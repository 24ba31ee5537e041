(** Positional notation, independent of the transcription. *)
From Coq Require Import ZArith List.
Import ListNotations.
Local Open Scope Z_scope.

(** Value of a most-significant-first digit list. *)
Fixpoint be_value (base : Z) (ds : list Z) : Z :=
  match ds with
  | [] => 0
  | d :: t => d * base ^ Z.of_nat (length t) + be_value base t
  end.

(** Value of a least-significant-first digit list. *)
Fixpoint le_value (base : Z) (ds : list Z) : Z :=
  match ds with
  | [] => 0
  | d :: t => d + base * le_value base t
  end.

(** No superfluous leading zero digit. *)
Definition no_leading_zero (ds : list Z) : Prop :=
  match ds with [] => True | d :: _ => d <> 0 end.

(** [ds] without its leading zeros. *)
Fixpoint strip_zeros (ds : list Z) : list Z :=
  match ds with
  | 0 :: t => strip_zeros t
  | _ => ds
  end.

(** [s] is the shortest non-empty big-endian octet string of value [x]. *)
Definition shortest (x : Z) (s : list Z) : Prop :=
  Forall (fun b => 0 <= b < 256) s /\ s <> [] /\ be_value 256 s = x /\
  (no_leading_zero s \/ s = [0]).

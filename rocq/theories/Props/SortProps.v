(** Order of encoded strings (C97) *)
From Coq Require Import ZArith List Lia Sorting.Sorted.
From Verif Require Import Model.Py Model.Encoding Spec.EncodingSpec Spec.SortSpec Proofs.SortFacts.
Import ListNotations.
Local Open Scope Z_scope.

(** C97: strings padded to one length sort like the numbers *)
Theorem C97_padded : forall x y k s t, 0 < k -> int_to_string x (Some k) = Ok s -> int_to_string y (Some k) = Ok t -> (str_lt s t <-> x < y).
Proof. exact c97_padded. Qed.
Print Assumptions C97_padded.

Example C97_padded_example : int_to_string 255 (Some 2) = Ok [0; 255] /\ int_to_string 256 (Some 2) = Ok [1; 0] /\ str_lt [0; 255] [1; 0].
Proof. repeat split; try reflexivity. apply lt_here. lia. Qed.

(** without padding: the shorter first, then as strings *)
Theorem C97_shortest : forall x y s t, int_to_string x None = Ok s -> int_to_string y None = Ok t -> (shortlex s t <-> x < y).
Proof. exact c97_shortest. Qed.
Print Assumptions C97_shortest.

Example C97_shortest_example : int_to_string 255 None = Ok [255] /\ int_to_string 256 None = Ok [1; 0] /\ shortlex [255] [1; 0] /\ ~ str_lt [255] [1; 0].
Proof. repeat split; try reflexivity; [left; cbn; lia|]. intros H. inversion H; lia. Qed.

Theorem C97_base_N : forall alphabet s t text text', 2 <= len alphabet -> StronglySorted Z.lt alphabet -> octets s -> octets t ->
  base_N_encode s alphabet = Ok text -> base_N_encode t alphabet = Ok text' -> (shortlex text text' <-> be_value 256 s < be_value 256 t).
Proof. exact c97_base_N. Qed.
Print Assumptions C97_base_N.

Example C97_base_N_example : base_N_encode [9] [48; 49] = Ok [49; 48; 48; 49] /\ base_N_encode [10] [48; 49] = Ok [49; 48; 49; 48] /\ shortlex [49; 48; 48; 49] [49; 48; 49; 48].
Proof. repeat split; try reflexivity. right. split; [reflexivity|]. do 2 apply lt_later. apply lt_here. lia. Qed.

Theorem C97_b94 : forall s t text text', octets s -> octets t -> b94encode s = Ok text -> b94encode t = Ok text' -> (shortlex text text' <-> be_value 256 s < be_value 256 t).
Proof. exact c97_b94. Qed.
Print Assumptions C97_b94.

Example C97_b94_example : exists u u', b94encode [1; 2] = Ok u /\ b94encode [1; 3] = Ok u' /\ u <> u' /\ length u = length u'.
Proof. do 2 eexists. split; [vm_compute; reflexivity|]. split; [vm_compute; reflexivity|]. split; [discriminate|reflexivity]. Qed.

(** the alphabets of base 27 and 85 are not in the order of the octets; numbers without padding do not sort as strings *)
Theorem C97_refuted :
  (exists s t u u', octets s /\ octets t /\ be_value 256 s < be_value 256 t /\ b27encode s = Ok u /\ b27encode t = Ok u' /\ str_lt u' u /\ length u = length u') /\
  (exists s t u u', octets s /\ octets t /\ be_value 256 s < be_value 256 t /\ b85encode s = Ok u /\ b85encode t = Ok u' /\ str_lt u' u /\ length u = length u') /\
  (exists x y s t, int_to_string x None = Ok s /\ int_to_string y None = Ok t /\ x < y /\ str_lt t s).
Proof. exact c97_refuted. Qed.
Print Assumptions C97_refuted.

Example C97_refuted_example : int_to_string 2 None = Ok [2] /\ int_to_string 256 None = Ok [1; 0] /\ str_lt [1; 0] [2].
Proof. repeat split; try reflexivity. apply lt_here. lia. Qed.

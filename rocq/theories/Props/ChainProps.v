(** What a prefix of the message does to Michael (hash/michael.py), and the seeds of the key mixer. *)
From Coq Require Import ZArith List Bool.
From Verif Require Import Model.Py Model.Michael Spec.AesSpec Proofs.TkipProofs Proofs.MichaelChain Proofs.SeedFacts.
Import ListNotations.
Local Open Scope Z_scope.

(** C105 *)
Theorem C105_prefix : forall key P, octets key -> len key = 8 -> octets P -> len P mod 4 = 0 ->
  exists key', octets key' /\ len key' = 8 /\ forall m, octets m -> michael key (P ++ m) = michael key' m.
Proof. exact c105_prefix. Qed.
Print Assumptions C105_prefix.

(** one message is enough to find that key *)
Theorem C105_unique : forall key P k1 k2 m0, octets k1 -> octets k2 -> len k1 = 8 -> len k2 = 8 -> octets m0 ->
  michael key (P ++ m0) = michael k1 m0 -> michael key (P ++ m0) = michael k2 m0 -> k1 = k2.
Proof. exact c105_unique. Qed.
Print Assumptions C105_unique.

Theorem C105_collision : forall key key' P P' m m', octets key -> len key = 8 -> octets key' -> len key' = 8 ->
  octets P -> len P mod 4 = 0 -> octets P' -> len P' mod 4 = 0 -> octets m -> octets m' ->
  michael key (P ++ m) = michael key' (P' ++ m) -> michael key (P ++ m') = michael key' (P' ++ m').
Proof. exact c105_collision. Qed.
Print Assumptions C105_collision.

(** every prefix, repeated often enough, leaves all tags as they are *)
Theorem C105_cycle_refuted : forall key P, octets key -> len key = 8 -> octets P -> len P mod 4 = 0 ->
  exists n, (0 < n)%nat /\ forall m, octets m -> michael key (concat (repeat P n) ++ m) = michael key m.
Proof. exact c105_cycle. Qed.
Print Assumptions C105_cycle_refuted.

(** a change within one word of four octets always shows *)
Theorem C105_word : forall key P W W' m, octets key -> len key = 8 -> octets P -> len P mod 4 = 0 ->
  octets W -> len W = 4 -> octets W' -> len W' = 4 -> octets m -> W <> W' ->
  michael key (P ++ W ++ m) <> michael key (P ++ W' ++ m).
Proof. exact c105_word. Qed.
Print Assumptions C105_word.

Example C105_example :
  michael (repeat 0 8) ([1; 2; 3; 4] ++ [77; 9]) = michael [100; 160; 84; 240; 189; 191; 210; 157] [77; 9] /\
  michael (repeat 0 8) ([1; 2; 3] ++ [77; 9]) <> michael [100; 160; 84; 240; 189; 191; 210; 157] [77; 9].
Proof. vm_compute. split; [reflexivity|discriminate]. Qed.

(** C106: the seeds of the key mixer, from any state of the object *)
Theorem C106_seed : forall Sbox m pn seed, octets pn -> snd (mixer_newKey Sbox m pn) = Ok seed ->
  octets seed /\ len seed = 16 /\ nth 0 seed 0 = nth 0 pn 0 /\ nth 2 seed 0 = nth 1 pn 0 /\
  32 <= nth 1 seed 0 <= 127 /\ Z.testbit (nth 1 seed 0) 5 = true /\
  (forall i, 0 <= i < 7 -> i <> 5 -> Z.testbit (nth 1 seed 0) i = Z.testbit (nth 0 pn 0) i).
Proof. exact c106_seed. Qed.
Print Assumptions C106_seed.

Example C106_example : exists m seed,
  mixer_new sbox (Some (repeat 1 16)) (Some (repeat 2 6)) (repeat 0 6) = Ok m /\
  snd (mixer_newKey sbox m [255; 7; 0; 0; 0; 1]) = Ok seed /\ firstn 3 seed = [255; 127; 7].
Proof. eexists. eexists. split; [vm_compute; reflexivity|]. split; [vm_compute; reflexivity|]. vm_compute. reflexivity. Qed.

(** Seeds and parameters of the Brainpool curves (C84). *)
From Coq Require Import ZArith List String Reals.
From Verif Require Import Model.Py Model.Ecc Model.Curves Model.BrainpoolSeeds Spec.NumberSpec Spec.SeedSpec Spec.CurveView Spec.BrainpoolSpec Proofs.BrainpoolFacts.
Import ListNotations.
Local Open Scope string_scope.
Local Open Scope Z_scope.

(** C84: brainpool_seeds returns consecutive groups of bits of the real number pi *)
Theorem C84_seeds : forall num bits, 0 <= num -> 0 < bits -> bits mod 8 = 0 -> num * bits <= 3321 -> exists l, brainpool_seeds num bits = Ok l /\ Z.of_nat (List.length l) = num /\
  forall i v, nth_error l i = Some v -> bit_group PI bits (Z.of_nat i) v.
Proof. exact c84_seeds. Qed.
Print Assumptions C84_seeds.

Example C84_seeds_example : (0 <= 3 /\ 0 < 16 /\ 16 mod 8 = 0 /\ 3 * 16 <= 3321) /\ brainpool_seeds 3 16 = Ok [0x3243; 0xF6A8; 0x885A].
Proof. split; [repeat split; discriminate|vm_compute; reflexivity]. Qed.

Theorem C84_raises : forall num bits, 0 <= num -> 0 <= bits ->
  (3321 < num * bits -> brainpool_seeds num bits = Raise TypeError) /\
  (bits mod 8 <> 0 -> brainpool_seeds num bits = Raise TypeError) /\
  (0 < num -> bits = 0 -> brainpool_seeds num bits = Raise ValueError).
Proof. exact c84_raises. Qed.
Print Assumptions C84_raises.

Example C84_raises_example : 3321 < 21 * 160 /\ 12 mod 8 <> 0 /\ brainpool_seeds 2 12 = Raise TypeError.
Proof. split; [reflexivity|]. split; [discriminate|]. apply (c84_raises 2 12); discriminate. Qed.

(** the attributes seed_p of the seven curves are these groups of pi *)
Theorem C84_seed_p : exists l, brainpool_seeds 7 160 = Ok l /\ map (fun e => int_attr (fst (fst e)) "seed_p") brainpool_curves = map Ok l.
Proof. exact c84_seed_p. Qed.
Print Assumptions C84_seed_p.

(** the attributes seed_ab are the groups of e *)
Theorem C84_seed_ab : exists l, map (fun e => int_attr (fst (fst e)) "seed_ab") brainpool_curves = map Ok l /\ forall i v, nth_error l i = Some v -> bit_group (exp 1) 160 (Z.of_nat i) v.
Proof. exact c84_seed_ab. Qed.
Print Assumptions C84_seed_ab.

Example C84_seed_example : int_attr cls_BrainPoolP160r1 "seed_p" = Ok 0x3243F6A8885A308D313198A2E03707344A409382 /\ int_attr cls_BrainPoolP160r1 "seed_ab" = Ok 0x2B7E151628AED2A6ABF7158809CF4F3C762E7160.
Proof. split; vm_compute; reflexivity. Qed.

(** the parameters follow from the seeds by the procedure of RFC 5639 *)
Theorem C84_parameters : forall c o i, In (c, o, i) brainpool_curves -> exists p a b n seed_p seed_ab,
  class_curve c = Ok (Curve p a b n) /\ int_attr c "seed_p" = Ok seed_p /\ int_attr c "seed_ab" = Ok seed_ab /\
  rfc5639_parameters (bit_length p) (seed_p + o) (seed_ab + i) p a b.
Proof. exact c84_parameters. Qed.
Print Assumptions C84_parameters.

Example C84_parameters_example : In (cls_BrainPoolP256r1, 0, 1941) brainpool_curves /\ exists p a b n, class_curve cls_BrainPoolP256r1 = Ok (Curve p a b n) /\ bit_length p = 256 /\ p mod 4 = 3.
Proof. split; [do 3 right; left; reflexivity|]. do 4 eexists. split; [vm_compute; reflexivity|]. split; vm_compute; reflexivity. Qed.

(** the check of the requirements cannot succeed: the name prime is not defined *)
Theorem C84_requirements_refuted : forall c o i E, In (c, o, i) brainpool_curves -> class_curve c = Ok E -> brainPoolRequirements E = Raise NameError.
Proof. exact c84_requirements_refuted. Qed.
Print Assumptions C84_requirements_refuted.

Example C84_requirements_example : brainPoolRequirements (Curve 23 1 1 28) = Raise NameError /\ brainPoolRequirements (Curve 13 1 1 18) = Raise AssertionError.
Proof. split; reflexivity. Qed.

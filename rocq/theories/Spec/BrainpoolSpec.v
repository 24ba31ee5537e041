(** What RFC 5639 says about the Brainpool curves: seeds cut from pi and e, and the parameters
    derived from the seeds. *)
From Coq Require Import ZArith List String Reals Znumtheory.
From Verif Require Import Model.Py Model.Ecc Model.Curves Spec.NumberSpec Spec.SeedSpec.
Import ListNotations.
Local Open Scope string_scope.
Local Open Scope Z_scope.

(** z is the integer part of r *)
Definition floor_of (r : R) (z : Z) : Prop := (IZR z <= r < IZR z + 1)%R.
(** v is the i-th group of w bits, counted from 0, of the binary expansion of r, where the first
    group begins four bits before the point *)
Definition bit_group (r : R) (w i v : Z) : Prop :=
  exists z, floor_of (r * IZR (2 ^ (w * (i + 1) - 4)))%R z /\ v = z mod 2 ^ w.

(** the curves with random parameters; for each, how often the seed of p was increased and how
    often the seed of a and b before a was found *)
Definition brainpool_curves : list (curve_class * Z * Z) :=
  [(cls_BrainPoolP160r1, 0, 282); (cls_BrainPoolP192r1, 0, 1254); (cls_BrainPoolP224r1, 0, 1344); (cls_BrainPoolP256r1, 0, 1941);
   (cls_BrainPoolP320r1, 0, 2222); (cls_BrainPoolP384r1, 1, 5653); (cls_BrainPoolP512r1, 0, 1871)].

(** RFC 5639 section 5: p is the least prime that is 3 modulo 4 and not less than the hash of a
    seed; a is a hash for which a z^4 = -3 has a solution; b is the first hash after a that is not
    a square *)
Definition rfc5639_parameters (L seed_p seed_a p a b : Z) : Prop :=
  least_prime_34 (hash_expand L 0 seed_p) p /\ bit_length p = L /\
  a = hash_expand L 1 seed_a /\ (exists z, (a * z ^ 4 + 3) mod p = 0) /\
  exists i, 0 < i /\ b = hash_expand L 1 (seed_a + i) /\ ~ square_mod b p /\
            forall j, 0 < j < i -> square_mod (hash_expand L 1 (seed_a + j)) p.

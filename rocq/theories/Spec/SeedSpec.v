(** Integers derived from a 160-bit seed with SHA-1: ANSI X9.62 A.3.3.1 and RFC 5639 section 5
    (the procedures behind the SECP_*r1 and Brainpool parameters), and isomorphic curves. *)
From Coq Require Import ZArith List Znumtheory.
From Verif Require Import Spec.HmacSpec Spec.CurveSpec.
Import ListNotations.
Local Open Scope Z_scope.

(** the 20 octets of x modulo 2^160, most significant first *)
Definition octets20 (x : Z) : list Z := map (fun i => (x / 256 ^ Z.of_nat (19 - i)) mod 256) (seq 0 20).
(** the value of an octet string *)
Definition value_of (s : list Z) : Z := fold_left (fun n c => 256 * n + c) s 0.
Definition sha_int (x : Z) : Z := value_of (sha1 (octets20 x)).
(** L - drop bits: the low bits of SHA-1(seed), then SHA-1(seed + 1), SHA-1(seed + 2), ... *)
Definition hash_expand (L drop seed : Z) : Z :=
  let v := (L - 1) / 160 in
  fold_left (fun x i => x * 2 ^ 160 + sha_int (seed + Z.of_nat i)) (seq 1 (Z.to_nat v)) (sha_int seed mod 2 ^ (L - 160 * v - drop)).
Definition bit_length (n : Z) : Z := Z.log2 n + 1.

(** p is the least prime >= x that is 3 modulo 4 *)
Definition least_prime_34 (x p : Z) : Prop :=
  x <= p /\ prime p /\ p mod 4 = 3 /\ forall q, x <= q < p -> q mod 4 = 3 -> ~ prime q.
(** (x, y) -> (z^2 x, z^3 y) *)
Definition scale_point (p z : Z) (P : ecpoint) : ecpoint :=
  match P with None => None | Some (x, y) => Some ((z ^ 2 * x) mod p, (z ^ 3 * y) mod p) end.
(** the map is an isomorphism of the curve groups of (a, b) and (a', b') *)
Definition curve_isomorphism (p a b a' b' : Z) (f : ecpoint -> ecpoint) : Prop :=
  (forall P, on_ec p a b P -> on_ec p a' b' (f P)) /\
  (forall Q, on_ec p a' b' Q -> exists P, on_ec p a b P /\ f P = Q /\ forall P', on_ec p a b P' -> f P' = Q -> P' = P) /\
  (forall P Q R, on_ec p a b P -> on_ec p a b Q -> on_ec p a b R -> (ec_sum p a P Q R <-> ec_sum p a' (f P) (f Q) (f R))).

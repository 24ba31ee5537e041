(** Pocklington's criterion, given powers modulo a prime divisor. *)
Set Warnings "-notation-overridden,-ambiguous-paths".
From Coq Require Import ZArith Znumtheory Zpow_facts Lia List Bool.
From mathcomp Require Import all_ssreflect all_fingroup all_solvable all_algebra finfield.
From Verif Require Import Proofs.Bridge Proofs.Legendre Proofs.Pocklington.
Set Implicit Arguments. Unset Strict Implicit. Unset Printing Implicit Defensive.
Import GRing.Theory.
Delimit Scope Z_scope with Z.
Local Open Scope ring_scope.

(** the order of a^r modulo p is q^e *)
Lemma pock_power (p a q r : Z) (e : nat) : Znumtheory.prime p -> Znumtheory.prime q -> (0 < e)%coq_nat -> (0 <= r)%Z ->
  (a ^ (r * q ^ Z.of_nat e) mod p = 1)%Z -> (a ^ (r * q ^ Z.of_nat (Nat.pred e)) mod p <> 1)%Z -> (q ^ Z.of_nat e | p - 1)%Z.
Proof.
move=> pp pq /ltP e0 r0 h1 h2; have P2 := prime_ge_2 _ pp; have Q2 := prime_ge_2 _ pq.
have pr := pr_p pp; set pn := Z.to_nat p in pr; pose F := [ringType of 'F_pn].
have [qn eq] : exists qn, q = Z.of_nat qn by exists (Z.to_nat q); lia.
have prq : prime.prime qn by apply/prime_bridge; rewrite -eq.
have pw k : (zr F (a ^ r)) ^+ (qn ^ k) = zr F (a ^ (r * q ^ Z.of_nat k)).
  by rewrite eq Zpow_nat Z.pow_mul_r ?zr_pow ?Nat2Z.id //; lia.
have := @prime_power_order [finFieldType of 'F_pn] (zr F (a ^ r)) qn e prq e0.
rewrite !pw card_Fp // => H.
have k1 : zr F (a ^ (r * q ^ Z.of_nat e)) = 1.
  by rewrite -(zr1 F); apply/(zFp_eq pp); rewrite h1 Z.mod_small //; lia.
have k2 : zr F (a ^ (r * q ^ Z.of_nat e.-1)) != 1.
  by apply/eqP; rewrite -[1](zr1 F) => /(zFp_eq pp) h; apply: h2; rewrite h Z.mod_small //; lia.
have /dvdnP [k ek] := H k1 k2.
exists (Z.of_nat k); rewrite eq Zpow_nat -Nat2Z.inj_mul multE -ek.
have /ltP := prime_gt0 pr; rewrite /pn; lia.
Qed.

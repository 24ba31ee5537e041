(** Pocklington's criterion: a checker for primality certificates. *)
Set Warnings "-notation-overridden,-ambiguous-paths".
From Coq Require Import ZArith Znumtheory Zpow_facts Lia List Bool.
From mathcomp Require Import all_ssreflect all_fingroup all_solvable all_algebra finfield.
From Verif Require Import Proofs.Bridge Proofs.Legendre.
Set Implicit Arguments. Unset Strict Implicit. Unset Printing Implicit Defensive.
Import GRing.Theory.
Delimit Scope Z_scope with Z.
Local Open Scope ring_scope.

(** the order of an element killed by q^e but not by q^(e-1) is q^e *)
Lemma prime_power_order (F : finFieldType) (x : F) (q e : nat) : prime.prime q -> (0 < e)%N ->
  x ^+ (q ^ e) = 1 -> x ^+ (q ^ e.-1) != 1 -> (q ^ e %| #|F|.-1)%N.
Proof.
move=> pq e0 h1 h2.
have [|m hm md] := @prim_order_exists F (q ^ e) x _ h1; first by rewrite expn_gt0 prime_gt0.
have [f fe ef] : exists2 f, (f <= e)%N & m = (q ^ f)%N by apply/dvdn_pfactor.
have -> : (q ^ e)%N = m.
  rewrite ef; congr (_ ^ _)%N; apply/eqP; rewrite eqn_leq fe andbT leqNgt; apply/negP => lt.
  move/negP: h2; apply; rewrite -(prim_order_dvd hm) ef dvdn_exp2l //; by case: (e) e0 lt.
rewrite (prim_order_dvd hm).
have x0 : x != 0.
  apply/eqP => x0; move: h1; rewrite x0 expr0n.
  have : (q ^ e != 0)%N by rewrite -lt0n expn_gt0 prime_gt0.
  by case: (_ == _)%N => // _ /eqP; rewrite eq_sym oner_eq0.
have F1 := finRing_gt1 F.
by apply/eqP; apply: (mulIf x0); rewrite -exprSr mul1r prednK ?expf_card //; exact: ltnW.
Qed.

Lemma Zpow_nat q e : (Z.of_nat q ^ Z.of_nat e = Z.of_nat (q ^ e)%N)%Z.
Proof.
elim: e => [|e IH]; first by rewrite expn0.
by rewrite Nat2Z.inj_succ Z.pow_succ_r ?IH ?expnS ?Nat2Z.inj_mul //; lia.
Qed.
Lemma pock_step (N p a q : Z) (e : nat) : Znumtheory.prime p -> (p | N)%Z -> Znumtheory.prime q -> (0 < e)%coq_nat -> (1 < N)%Z -> (q ^ Z.of_nat e | N - 1)%Z ->
  (a ^ (N - 1) mod N = 1)%Z -> Z.gcd (a ^ ((N - 1) / q) mod N - 1) N = 1%Z -> (q ^ Z.of_nat e | p - 1)%Z.
Proof.
move=> pp pN pq /ltP e0 N1 [r hr] hf hg; have P2 := prime_ge_2 _ pp; have Q2 := prime_ge_2 _ pq.
have pr := pr_p pp; set pn := Z.to_nat p in pr; pose F := [ringType of 'F_pn].
have [qn eq] : exists qn, q = Z.of_nat qn by exists (Z.to_nat q); lia.
have prq : prime.prime qn by apply/prime_bridge; rewrite -eq.
have r0 : (0 <= r)%Z.
  have h : (0 < q ^ Z.of_nat e)%Z by apply: Z.pow_pos_nonneg; lia.
  nia.
have pw k : (zr F (a ^ r)) ^+ (qn ^ k) = zr F (a ^ (r * q ^ Z.of_nat k)).
  by rewrite eq Zpow_nat Z.pow_mul_r ?zr_pow ?Nat2Z.id //; lia.
have modN y z : (y mod N = z mod N)%Z -> (y mod p = z mod p)%Z.
  by move=> h; rewrite (Znumtheory.Zmod_div_mod p N y) ?(Znumtheory.Zmod_div_mod p N z) ?h //; lia.
have := @prime_power_order [finFieldType of 'F_pn] (zr F (a ^ r)) qn e prq e0.
rewrite !pw card_Fp // => H.
have h1 : zr F (a ^ (r * q ^ Z.of_nat e)) = 1.
  rewrite -hr -(zr1 F); apply/(zFp_eq pp); apply: modN; rewrite hf Z.mod_small //; lia.
have h2 : zr F (a ^ (r * q ^ Z.of_nat e.-1)) != 1.
  apply/eqP; rewrite -[1](zr1 F) => /(zFp_eq pp) h.
  have e' : ((N - 1) / q = r * q ^ Z.of_nat e.-1)%Z.
    rewrite hr -{1}(prednK e0) Nat2Z.inj_succ Z.pow_succ_r; last lia.
    by rewrite Z.mul_comm -Z.mul_assoc Z.mul_comm Z.div_mul; [rewrite Z.mul_comm|lia].
  have : (p | Z.gcd (a ^ ((N - 1) / q) mod N - 1) N)%Z.
    apply: Z.gcd_greatest => //; apply/Z.mod_divide; first lia.
    have -> : ((a ^ ((N - 1) / q) mod N - 1) mod p = (a ^ ((N - 1) / q) - 1) mod p)%Z.
      by apply: modN; rewrite Zminus_mod_idemp_l.
    by rewrite e' Zminus_mod h Z.sub_diag.
  rewrite hg => /Z.divide_pos_le; lia.
have /dvdnP [k ek] := H h1 h2.
exists (Z.of_nat k); rewrite eq Zpow_nat -Nat2Z.inj_mul multE -ek.
have /ltP := prime_gt0 pr; rewrite /pn; lia.
Qed.

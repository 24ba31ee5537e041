(** Primitive roots, Euler's theorem and the totient function on the integers. *)
Set Warnings "-notation-overridden,-ambiguous-paths".
From Coq Require Import ZArith Znumtheory Zpow_facts Lia.
From mathcomp Require Import all_ssreflect all_fingroup all_solvable all_algebra finfield.
From Verif Require Import Spec.NumberSpec Proofs.Bridge Proofs.QuadRec Proofs.Legendre Proofs.Pocklington.
Set Implicit Arguments. Unset Strict Implicit. Unset Printing Implicit Defensive.
Import GRing.Theory Num.Theory.
Delimit Scope Z_scope with Z.
Local Open Scope ring_scope.

Lemma primitive_root (p : Z) : Znumtheory.prime p ->
  exists g, (1 <= g < p)%Z /\ forall k, (0 <= k)%Z -> (g ^ k mod p = 1 mod p)%Z -> (p - 1 | k)%Z.
Proof.
move=> pp; have P2 := prime_ge_2 _ pp; have pr := pr_p pp; set pn := Z.to_nat p in pr.
have [z hz] := fin_prim_root [finFieldType of 'F_pn].
have [a ra ea] := zr_surj pr z.
have z0 : z != 0.
  apply/eqP => z0; have := prim_expr_order hz; rewrite z0 expr0n /= card_Fp //.
  case: (pn.-1 =P 0)%N; last by move=> _ /eqP; rewrite eq_sym oner_eq0.
  have := prim_order_gt0 hz; rewrite card_Fp //; lia.
rewrite -(P_p pp) in ra.
exists a; split.
  suff : a <> 0%Z by lia.
  by move=> a0; move: z0; rewrite ea a0 eqxx.
move=> k k0 hk; have : z ^+ Z.to_nat k = 1.
  by rewrite ea -zr_pow // -(zr1 [ringType of 'F_pn]); apply/(zFp_eq pp).
move/eqP; rewrite -(prim_order_dvd hz) card_Fp // => /dvdnP [q eq].
exists (Z.of_nat q); rewrite -(Z2Nat.id k) // eq Nat2Z.inj_mul; f_equal.
have /ltP := prime_gt0 pr; rewrite /pn; lia.
Qed.

Lemma gcd_bridge a b : Z.gcd (Z.of_nat a) (Z.of_nat b) = Z.of_nat (gcdn a b).
Proof.
apply: Z.gcd_unique; first lia.
- by have /dvdnP [q e] := dvdn_gcdl a b; exists (Z.of_nat q); rewrite -Nat2Z.inj_mul multE -e.
- by have /dvdnP [q e] := dvdn_gcdr a b; exists (Z.of_nat q); rewrite -Nat2Z.inj_mul multE -e.
- move=> q qa qb; apply/Z.divide_abs_l.
  have h c : (q | Z.of_nat c)%Z -> (Z.to_nat (Z.abs q) %| c)%N.
    move/Z.divide_abs_l => [k ek]; apply/dvdnP; exists (Z.to_nat k).
    case: (Z.eq_dec (Z.of_nat c) 0) => c0.
      have -> : c = 0%N by lia.
      have : (k = 0 \/ Z.abs q = 0)%Z by nia.
      by case=> ->; rewrite ?mul0n ?muln0.
    have k0 : (0 <= k)%Z by nia.
    by apply: Nat2Z.inj; rewrite Nat2Z.inj_mul !Z2Nat.id ?ek //; lia.
  have : (Z.to_nat (Z.abs q) %| gcdn a b)%N by rewrite dvdn_gcd !h.
  case/dvdnP => k ek; exists (Z.of_nat k); rewrite ek Nat2Z.inj_mul Z2Nat.id //; lia.
Qed.
Lemma coprime_bridge a b : (Z.gcd (Z.of_nat a) (Z.of_nat b) =? 1)%Z = coprime a b.
Proof. by rewrite gcd_bridge /coprime; apply/idP/eqP => [/Z.eqb_eq|->]; first lia. Qed.

Lemma length_filter_count (P : nat -> bool) l : length (List.filter P l) = count P l.
Proof. by elim: l => //= x l <-; case: (P x). Qed.
Lemma seq_iota m n : List.seq m n = iota m n.
Proof. by elim: n m => //= n IH m; rewrite IH. Qed.
Lemma totient_bridge n : totient (Z.of_nat n) = Z.of_nat (prime.totient n).
Proof.
rewrite /totient Nat2Z.id length_filter_count seq_iota; congr Z.of_nat.
case: n => [|n]; first by [].
rewrite totient_count_coprime big_mkord.
have e : count (fun k => (Z.gcd (Z.of_nat k) (Z.of_nat n.+1) =? 1)%Z) (iota 1 n.+1) = count (coprime n.+1) (iota 0 n.+1).
  rewrite (@eq_count _ _ (coprime n.+1)); last by move=> k; rewrite coprime_bridge coprime_sym.
  have -> : iota 1 n.+1 = iota 1 n ++ [:: n.+1] by rewrite -{1}(addn1 n) iotaD /= add1n.
  have -> : iota 0 n.+1 = 0%N :: iota 1 n by [].
  by rewrite count_cat /= addn0 addnC /coprime gcdnn gcdn0.
rewrite e -sum1_count -(big_mkord (fun _ => true) (fun i => nat_of_bool (coprime n.+1 i))) /index_iota subn0 big_mkcond /=.
by apply: eq_bigr => i _; case: (coprime _ _).
Qed.
Lemma totient_pfactor_mul p e m : Znumtheory.prime p -> (0 < e)%Z -> (0 < m)%Z -> ~ (p | m)%Z ->
  totient (p ^ e * m) = (p ^ (e - 1) * (p - 1) * totient m)%Z.
Proof.
move=> pp e0 m0 nd; have P2 := prime_ge_2 _ pp; have pr := pr_p pp; set pn := Z.to_nat p in pr.
have ep := P_p pp; rewrite -/pn in ep.
have [en ee] : exists en, e = Z.of_nat en.+1 by exists (Z.to_nat e).-1; lia.
have [mn em] : exists mn, m = Z.of_nat mn by exists (Z.to_nat m); lia.
have co : coprime (pn ^ en.+1) mn.
  rewrite coprimeXl // prime_coprime //; apply/negP => /dvdnP [q hq]; apply: nd; exists (Z.of_nat q).
  by rewrite em hq Nat2Z.inj_mul -ep.
have -> : (e - 1 = Z.of_nat en)%Z by lia.
have e2 : (Z.of_nat pn - 1 = Z.of_nat pn.-1)%Z by have /ltP := prime_gt0 pr; lia.
rewrite ep ee em e2 !Zpow_nat -Nat2Z.inj_mul multE !totient_bridge -!Nat2Z.inj_mul !multE totient_coprime // totient_pfactor //=; congr Z.of_nat.
by rewrite (mulnC pn.-1).
Qed.
Lemma totient_1 : totient 1 = 1%Z. Proof. by []. Qed.
Lemma totient_pos n : (0 < n)%Z -> (0 < totient n)%Z.
Proof.
move=> h; have -> : n = Z.of_nat (Z.to_nat n) by lia.
rewrite totient_bridge; have /ltP : (0 < prime.totient (Z.to_nat n))%N by rewrite totient_gt0; apply/ltP; lia.
lia.
Qed.
Lemma euler_totient a n : (0 <= a)%Z -> (0 < n)%Z -> Z.gcd a n = 1%Z -> (a ^ totient n mod n = 1 mod n)%Z.
Proof.
move=> a0 n0; have -> : n = Z.of_nat (Z.to_nat n) by lia.
have -> : a = Z.of_nat (Z.to_nat a) by lia.
move=> /Z.eqb_eq; rewrite coprime_bridge => co.
rewrite totient_bridge Zpow_nat; have := Euler_exp_totient co.
have P2 : Z.of_nat (Z.to_nat n) <> 0%Z by lia.
have md x y : (x = y %[mod Z.to_nat n])%N -> (Z.of_nat x mod Z.of_nat (Z.to_nat n) = Z.of_nat y mod Z.of_nat (Z.to_nat n))%Z.
  move=> h; rewrite (divn_eq x (Z.to_nat n)) (divn_eq y (Z.to_nat n)) h !Nat2Z.inj_add !Nat2Z.inj_mul.
  by rewrite ![(Z.of_nat (_ %/ _) * _ + _)%Z]Z.add_comm !Z_mod_plus_full.
by move/md.
Qed.

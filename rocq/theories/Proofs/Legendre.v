(** Euler's criterion and quadratic reciprocity on the integers. *)
Set Warnings "-notation-overridden,-ambiguous-paths".
From Coq Require Import ZArith Znumtheory Zpow_facts Lia.
From mathcomp Require Import all_ssreflect all_fingroup all_solvable all_algebra finfield.
From Verif Require Import Spec.NumberSpec Proofs.Bridge Proofs.QuadRec.
Set Implicit Arguments. Unset Strict Implicit. Unset Printing Implicit Defensive.
Import GRing.Theory Num.Theory.
Delimit Scope Z_scope with Z.
Local Open Scope ring_scope.

(** the Legendre symbol by Euler's criterion *)
Definition lz (p a : Z) : Z :=
  (if a mod p =? 0 then 0 else if a ^ (p / 2) mod p =? 1 then 1 else -1)%Z.

Lemma zint_inj a b : zr int_Ring a = zr int_Ring b -> a = b.
Proof.
have H z : zr int_Ring z = 0 -> z = 0%Z.
  case: z => [|q|q] //= /eqP; rewrite ?oppr_eq0 pnatr_eq0 => /eqP; lia.
move=> e; suff : (a - b = 0)%Z by lia.
by apply: H; rewrite zr_sub e subrr.
Qed.

Section P.
Variables (P : Z) (prP : Znumtheory.prime P) (oddP : (P mod 2 = 1)%Z).
Let p := Z.to_nat P.
Lemma P_p : P = Z.of_nat p.
Proof. by rewrite /p Z2Nat.id //; have := prime_ge_2 _ prP; lia. Qed.
Lemma pr_p : prime.prime p.
Proof. by apply/prime_bridge; rewrite -P_p. Qed.
Lemma half_p : p./2 = Z.to_nat (P / 2).
Proof.
have e := P_p; have := odd_double_half p; have := prime_ge_2 _ prP => P2.
rewrite -mul2n; move: (p./2) => h; case: (odd p) => /= H; apply: Nat2Z.inj; rewrite Z2Nat.id; try by apply: Z_div_pos; lia.
  have -> : P = (1 + Z.of_nat h * 2)%Z by rewrite e -H Nat2Z.inj_add Nat2Z.inj_mul; lia.
  by rewrite Z.div_add.
have -> : P = (Z.of_nat h * 2)%Z by rewrite e -H Nat2Z.inj_add Nat2Z.inj_mul; lia.
by rewrite Z.div_mul.
Qed.
Lemma odd_p : odd p.
Proof.
have e := P_p; have := odd_double_half p; case: (odd p) => //= H.
exfalso; move: oddP; rewrite e -H -mul2n Nat2Z.inj_add Nat2Z.inj_mul Z.add_0_l Z.mul_comm Z.mod_mul //.
Qed.
Let Fp := [ringType of 'F_p].
Lemma chFp : p \in [char Fp]. Proof. exact: char_Fp pr_p. Qed.
Lemma zFp_eq a b : zr Fp a = zr Fp b <-> (a mod P = b mod P)%Z.
Proof. by rewrite P_p; exact: zr_eq chFp _ _. Qed.
Lemma zFp_eq0 a : zr Fp a = 0 <-> (a mod P = 0)%Z.
Proof. by rewrite P_p; exact: zr_eq0 chFp _. Qed.

Lemma P_pos : (2 <= P)%Z. Proof. exact: prime_ge_2 prP. Qed.
Lemma chi_lz (R : ringType) a : chi R (zr Fp a) = zr R (lz P a).
Proof.
have P2 := P_pos; rewrite /chi /lz.
case: eqP => [/zFp_eq0 ->|h]; first by [].
case: Z.eqb_spec => [/zFp_eq0 //|_].
have E : (zr Fp a ^+ p./2 = 1) <-> (a ^ (P / 2) mod P = 1)%Z.
  rewrite half_p -zr_pow; last by apply: Z_div_pos; lia.
  rewrite -(zr1 Fp) zFp_eq [(1 mod P)%Z]Z.mod_small //; lia.
case: eqP => [/E ->|h']; first by [].
by case: Z.eqb_spec => // /E.
Qed.
Lemma euler_val a : (a ^ (P / 2) mod P = lz P a mod P)%Z.
Proof.
have P2 := P_pos; rewrite /lz.
case: Z.eqb_spec => [h|h].
  rewrite Zpower_mod ?h; last by lia.
  rewrite Z.pow_0_l //; apply: Z.div_str_pos; lia.
case: Z.eqb_spec => [->|h1]; first by rewrite Z.mod_small; lia.
apply/zFp_eq; rewrite zr_pow -?half_p; last by apply: Z_div_pos; lia.
have nz : zr Fp a != 0 by apply/eqP => /zFp_eq0.
case: (chi_pm pr_p odd_p nz) => [e|->]; last by [].
exfalso; apply: h1; rewrite -(Z.mod_small 1 P); last by lia.
by apply/zFp_eq; rewrite zr_pow -?half_p; [exact: e | apply: Z_div_pos; lia].
Qed.
Lemma lz_square a : (a mod P <> 0)%Z -> (lz P a = 1%Z <-> square_mod a P).
Proof.
move=> nz; have P2 := P_pos.
have nz' : zr Fp a != 0 by apply/eqP => /zFp_eq0.
have E := euler (cardq pr_p odd_p) (half_gt0 pr_p odd_p) nz'.
have : lz P a = 1%Z <-> zr Fp a ^+ p./2 = 1.
  rewrite half_p -zr_pow; last by apply: Z_div_pos; lia.
  rewrite -[1 in X in _ <-> X](zr1 Fp) zFp_eq [(1 mod P)%Z]Z.mod_small; last by lia.
  rewrite /lz; case: Z.eqb_spec => // _; case: Z.eqb_spec => // h; split => //; lia.
move=> ->; rewrite E; split.
- move=> [y e]; have [b _ eb] := zr_surj pr_p y; exists b.
  by apply/zFp_eq0; rewrite zr_sub zr_mul -eb e expr2 subrr.
- move=> [x /zFp_eq0]; rewrite zr_sub zr_mul => /eqP; rewrite subr_eq0 => /eqP e.
  by exists (zr Fp x); rewrite -e expr2.
Qed.
Lemma lz_legendre a s : legendre a P s <-> s = lz P a.
Proof.
have P2 := P_pos; split.
- case=> [h|nz sq|nz nsq].
  + by rewrite /lz h.
  + by apply/esym/lz_square.
  + have := lz_square nz; rewrite {2}/lz /lz; case: Z.eqb_spec => // _; case: Z.eqb_spec => // _ H.
    by exfalso; apply: nsq; apply/H.
- move=> ->; case: (Z.eq_dec (a mod P) 0) => h; first by rewrite {1}/lz h; constructor.
  case: (Z.eq_dec (lz P a) 1) => h1; first by rewrite h1; constructor => //; apply/lz_square.
  have -> : lz P a = (-1)%Z.
    by move: h1; rewrite /lz; case: Z.eqb_spec => // _; case: Z.eqb_spec.
  by constructor => // /lz_square - /(_ h).
Qed.
Lemma lz_mul a b : lz P (a * b) = (lz P a * lz P b)%Z.
Proof.
by apply: zint_inj; rewrite zr_mul -!chi_lz zr_mul chiM ?pr_p ?odd_p.
Qed.
Lemma lz_mod a b : (a mod P = b mod P)%Z -> lz P a = lz P b.
Proof. by move=> e; apply: zint_inj; rewrite -!chi_lz; congr (chi _ _); apply/zFp_eq. Qed.
Lemma lz_1 : lz P 1 = 1%Z.
Proof. by apply: zint_inj; rewrite -!chi_lz chi1. Qed.
Lemma lz_0 a : (a mod P = 0)%Z -> lz P a = 0%Z.
Proof. by rewrite /lz => ->. Qed.
Lemma lz_nonres : exists n, (0 <= n < P)%Z /\ lz P n = (-1)%Z.
Proof.
have [//|b b0 hb] := nonres pr_p odd_p (L := int_Ring). have [a ha e] := zr_surj pr_p b.
exists a; split; first by rewrite P_p. by apply: zint_inj; rewrite -chi_lz -[zr int_Ring (-1)]/(-1) -hb e.
Qed.
Lemma lz_2 : lz P 2 = (if (P mod 8 =? 1) || (P mod 8 =? 7) then 1 else -1)%Z.
Proof.
apply: zint_inj; rewrite -chi_lz -[zr Fp 2]/(2%:R) chi_2 ?pr_p ?odd_p //.
have E : forall k, ((p %% 8)%N == k) = (P mod 8 =? Z.of_nat k)%Z.
  move=> k; rewrite P_p; have e : (Z.of_nat p mod 8)%Z = Z.of_nat (p %% 8).
    rewrite {1}(divn_eq p 8) Nat2Z.inj_add Nat2Z.inj_mul Z.add_comm Z.mod_add //.
    rewrite Z.mod_small //; have /ltP := ltn_pmod p (isT : (0 < 8)%N); lia.
  rewrite e; apply/eqP/idP => [->|]; first by rewrite Z.eqb_refl.
  by move=> /Z.eqb_eq; lia.
rewrite !E /=; by case: (_ || _).
Qed.
Lemma lz_neg1 : lz P (-1) = (if (P mod 4 =? 3) then -1 else 1)%Z.
Proof.
apply: zint_inj; rewrite -chi_lz -[zr Fp (-1)]/(-1) chi_minus1 ?pr_p ?odd_p // half_p.
have P2 := P_pos.
have [[q [q0 e]]|[q [q0 e]]] : (exists q, 0 <= q /\ P = 4 * q + 1)%Z \/ (exists q, 0 <= q /\ P = 4 * q + 3)%Z.
- have : (P mod 4 = 1 \/ P mod 4 = 3)%Z by move: oddP; Z.to_euclidean_division_equations; lia.
  by move=> [] h; [left|right]; exists (P / 4)%Z; move: h; Z.to_euclidean_division_equations; lia.
- have -> : (P / 2 = 2 * q)%Z by Z.to_euclidean_division_equations; lia.
  have -> : (P mod 4 = 1)%Z by Z.to_euclidean_division_equations; lia.
  by rewrite Z2Nat.inj_mul // multE exprM sqrrN !expr1n.
- have -> : (P / 2 = 2 * q + 1)%Z by Z.to_euclidean_division_equations; lia.
  have -> : (P mod 4 = 3)%Z by Z.to_euclidean_division_equations; lia.
  rewrite Z2Nat.inj_add ?Z2Nat.inj_mul //; try lia.
  by rewrite plusE multE exprD exprM sqrrN !expr1n mul1r expr1.
Qed.
End P.

(** quadratic reciprocity; trivially true for p = q *)
Lemma lz_reciprocity p q : Znumtheory.prime p -> Znumtheory.prime q -> (p mod 2 = 1)%Z -> (q mod 2 = 1)%Z ->
  lz q p = ((if (p mod 4 =? 3) && (q mod 4 =? 3) then -1 else 1) * lz p q)%Z.
Proof.
move=> prp prq op oq; have p2 := P_pos prp; have q2 := P_pos prq.
case: (Z.eq_dec p q) => [->|ne].
  by rewrite lz_0 ?Z.mod_same //; lia.
have Pp := P_p prp; have Pq := P_p prq.
have ne' : Z.to_nat p != Z.to_nat q by apply/eqP => e; apply: ne; lia.
have := quadratic_reciprocity (pr_p prp) (pr_p prq) (odd_p prp op) (odd_p prq oq) ne' int_Ring.
rewrite -!zr_nat -Pp -Pq !chi_lz // (half_p prp) (half_p prq) => E.
have F : zr int_Ring (if (p mod 4 =? 3) && (q mod 4 =? 3) then -1 else 1)%Z = (-1) ^+ (Z.to_nat (p / 2) * Z.to_nat (q / 2)).
  rewrite -signr_odd oddM.
  have o x : (0 <= x)%Z -> (x mod 2 = 1)%Z -> odd (Z.to_nat (x / 2)) = (x mod 4 =? 3)%Z.
    move=> x0 ox; have : (x mod 4 = 1 \/ x mod 4 = 3)%Z by move: ox; Z.to_euclidean_division_equations; lia.
    have q0 : (0 <= x / 4)%Z by apply: Z_div_pos; lia.
    move=> [] h; rewrite h.
      have -> : (x / 2 = 2 * (x / 4))%Z by move: h; Z.to_euclidean_division_equations; lia.
      by rewrite Z2Nat.inj_mul // multE oddM.
    have -> : (x / 2 = 2 * (x / 4) + 1)%Z by move: h; Z.to_euclidean_division_equations; lia.
    rewrite Z2Nat.inj_add ?Z2Nat.inj_mul //; try lia; by rewrite plusE multE oddD oddM.
  rewrite !o //; try lia; by case: (_ && _).
apply: zint_inj; rewrite zr_mul F -E -mulrA.
case: (Z.eq_dec (q mod p) 0) => h.
  have : (p | q)%Z by apply: Zmod_divide => //; lia.
  by move=> /(prime_div_prime _ _ prp prq).
have : lz p q = 1%Z \/ lz p q = (-1)%Z.
  rewrite /lz; case: Z.eqb_spec => // _; case: Z.eqb_spec; auto.
by move=> [] ->; rewrite -zr_mul mulr1.
Qed.

(** The integers of the standard library as elements of mathcomp rings and prime fields. *)
Set Warnings "-notation-overridden,-ambiguous-paths".
From Coq Require Import ZArith Znumtheory Lia.
From mathcomp Require Import all_ssreflect all_fingroup all_solvable all_algebra finfield.
Set Implicit Arguments. Unset Strict Implicit. Unset Printing Implicit Defensive.
Import GRing.Theory.
Delimit Scope Z_scope with Z.
Local Open Scope ring_scope.

(** the image of an integer in a ring *)
Definition zr (R : ringType) (z : Z) : R :=
  match z with
  | Z0 => 0
  | Zpos q => (Pos.to_nat q)%:R
  | Zneg q => - (Pos.to_nat q)%:R
  end.

Section Zr.
Variable R : ringType.
Lemma zr_nat n : zr R (Z.of_nat n) = n%:R.
Proof.
by case: n => [|n] //=; rewrite SuccNat2Pos.id_succ.
Qed.
Lemma zr_opp z : zr R (- z) = - zr R z.
Proof. by case: z => [|q|q] /=; rewrite ?oppr0 ?opprK. Qed.
Lemma zr_sub_nat m n : zr R (Z.of_nat m - Z.of_nat n) = m%:R - n%:R.
Proof.
case: (leqP n m) => [le|/ltnW le].
  rewrite -natrB // -zr_nat -Nat2Z.inj_sub; last exact/leP.
  by [].
have ->: (Z.of_nat m - Z.of_nat n = - Z.of_nat (n - m)%N)%Z.
  by rewrite Nat2Z.inj_sub; [ring | exact/leP].
by rewrite zr_opp zr_nat natrB // opprB.
Qed.
Lemma z_diff z : exists m n, z = (Z.of_nat m - Z.of_nat n)%Z.
Proof.
exists (Z.to_nat z), (Z.to_nat (- z)); lia.
Qed.
Lemma zr_add a b : zr R (a + b) = zr R a + zr R b.
Proof.
have [m [n ->]] := z_diff a; have [k [l ->]] := z_diff b.
have ->: (Z.of_nat m - Z.of_nat n + (Z.of_nat k - Z.of_nat l) = Z.of_nat (m + k)%N - Z.of_nat (n + l)%N)%Z.
  by rewrite !Nat2Z.inj_add; ring.
by rewrite !zr_sub_nat !natrD opprD addrACA.
Qed.
Lemma zr_sub a b : zr R (a - b) = zr R a - zr R b.
Proof. by rewrite -Z.add_opp_r zr_add zr_opp. Qed.
Lemma zr_mul a b : zr R (a * b) = zr R a * zr R b.
Proof.
have [m [n ->]] := z_diff a; have [k [l ->]] := z_diff b.
have ->: ((Z.of_nat m - Z.of_nat n) * (Z.of_nat k - Z.of_nat l) = Z.of_nat (m * k + n * l)%N - Z.of_nat (m * l + n * k)%N)%Z.
  by rewrite !Nat2Z.inj_add !Nat2Z.inj_mul; ring.
rewrite !zr_sub_nat !natrD !natrM mulrBl !mulrBr.
by rewrite opprB addrACA opprD.
Qed.
Lemma zr0 : zr R 0 = 0. Proof. by []. Qed.
Lemma zr1 : zr R 1 = 1. Proof. by []. Qed.
End Zr.

Lemma zr_pow (R : ringType) a e : (0 <= e)%Z -> zr R (a ^ e) = zr R a ^+ (Z.to_nat e).
Proof.
move=> h; rewrite -{1}(Z2Nat.id e) //; elim: (Z.to_nat e) => [|n IH]; first by rewrite expr0.
by rewrite Nat2Z.inj_succ Z.pow_succ_r ?zr_mul ?IH ?exprS //; exact: Nat2Z.is_nonneg.
Qed.

(** primes *)
Lemma prime_bridge p : prime.prime p <-> Znumtheory.prime (Z.of_nat p).
Proof.
split.
- move=> pr; apply/prime_alt; split; first by have /ltP := prime_gt1 pr; lia.
  move=> n [n1 np] [k hk].
  have k0 : (0 < k)%Z by nia.
  have: (Z.to_nat n %| p)%N.
    apply/dvdnP; exists (Z.to_nat k); apply: Nat2Z.inj; rewrite Nat2Z.inj_mul !Z2Nat.id; lia.
  case/primeP: pr => _ H /H /orP [/eqP e|/eqP e]; lia.
- move=> pr; have := prime_ge_2 _ pr => h2; apply/primeP; split; first by apply/ltP; lia.
  move=> d /dvdnP [k e].
  have dv : (Z.of_nat d | Z.of_nat p)%Z by exists (Z.of_nat k); rewrite e Nat2Z.inj_mul.
  by case: (prime_divisors _ pr _ dv) => [|[|[|]]] h; apply/orP; [lia | left; apply/eqP; lia | right; apply/eqP; lia | lia].
Qed.

Section CharP.
Variables (R : ringType) (p : nat) (charRp : p \in [char R]).
Lemma char_p : zr R (Z.of_nat p) = 0.
Proof. by rewrite zr_nat charf0. Qed.
Lemma zr_mod a : zr R (a mod Z.of_nat p) = zr R a.
Proof.
have p0 : Z.of_nat p <> 0%Z by have /ltP := prime_gt0 (charf_prime charRp); lia.
by rewrite Zmod_eq_full // zr_sub zr_mul char_p mulr0 subr0.
Qed.
Lemma zr_eq0 a : zr R a = 0 <-> (a mod Z.of_nat p = 0)%Z.
Proof.
have p0 : (0 < Z.of_nat p)%Z by have /ltP := prime_gt0 (charf_prime charRp); lia.
have b := Z.mod_pos_bound a _ p0.
split; last by move=> h; rewrite -zr_mod h.
rewrite -zr_mod -(Z2Nat.id (a mod _)); last by lia.
rewrite zr_nat => /eqP; rewrite -(dvdn_charf charRp) => /dvdnP [k e].
case: k e => [|k] e; first by rewrite e mul0n.
have := leq_pmull p (ltn0Sn k); rewrite -e => /leP; lia.
Qed.
Lemma zr_eq a b : zr R a = zr R b <-> (a mod Z.of_nat p = b mod Z.of_nat p)%Z.
Proof.
have p0 : Z.of_nat p <> 0%Z by have /ltP := prime_gt0 (charf_prime charRp); lia.
split=> h; last by rewrite -zr_mod h zr_mod.
have : zr R (a - b) = 0 by rewrite zr_sub h subrr.
move/zr_eq0 => e.
have -> : a = (b + (a - b))%Z by ring.
by rewrite Zplus_mod e Z.add_0_r Z.mod_mod.
Qed.
End CharP.

(** the prime field *)
Section Fp.
Variables (p : nat) (pr : prime.prime p).
Lemma charFp : p \in [char 'F_p]. Proof. exact: char_Fp. Qed.
Lemma zr_surj (x : 'F_p) : exists2 a, (0 <= a < Z.of_nat p)%Z & x = zr [ringType of 'F_p] a.
Proof.
exists (Z.of_nat x); last by rewrite zr_nat natr_Zp.
have := ltn_ord x; rewrite [X in (_ < X)%N -> _]Fp_cast // => /ltP; lia.
Qed.
Lemma fermat (x : 'F_p) : x ^+ p = x.
Proof. by rewrite -[in X in _ ^+ X](card_Fp pr) expf_card. Qed.
Lemma fermat1 (x : 'F_p) : x != 0 -> x ^+ p.-1 = 1.
Proof.
move=> nz; apply: (mulIf nz); rewrite -exprSr mul1r prednK ?prime_gt0 //; exact: fermat.
Qed.
End Fp.

(** primitive roots *)
Lemma fin_prim_root (F : finFieldType) : exists z : F, (#|F|.-1).-primitive_root z.
Proof.
have F1 := finRing_gt1 F.
have := @has_prim_root F #|F|.-1 (filter (predC1 0) (enum F)).
have sz : size (filter (predC1 (0 : F)) (enum F)) = #|F|.-1.
  rewrite -(cardC1 (0 : F)) cardE; apply: perm_size; apply: uniq_perm.
  - by rewrite filter_uniq ?enum_uniq.
  - by rewrite enum_uniq.
  by move=> x; rewrite mem_filter !mem_enum /= andbT.
rewrite sz leqnn filter_uniq ?enum_uniq // => H.
have /hasP [z _ hz] : has (#|F|.-1).-primitive_root (filter (predC1 0) (enum F)).
  apply: H => //; first by rewrite -ltnS prednK // ltnW.
  apply/allP => x; rewrite mem_filter => /andP [/= nz _]; apply/unity_rootP.
  apply: (mulIf nz); rewrite -exprSr mul1r prednK ?expf_card //; exact: ltnW.
by exists z.
Qed.
Lemma ext_root (p n : nat) : prime.prime p -> (0 < n)%N -> coprime p n ->
  exists (L : finFieldType) (z : L), p \in [char L] /\ n.-primitive_root z.
Proof.
move=> pr n0 cop.
have k0 : (0 < totient n)%N by rewrite totient_gt0.
have [L charL cardL] := PrimePowerField pr k0.
have [z hz] := fin_prim_root L.
have dv : (n %| #|L|.-1)%N.
  have := Euler_exp_totient cop; rewrite -cardL.
  have L1 := finRing_gt1 L.
  by move=> /eqP; rewrite -{1}(prednK (ltnW L1)) -addn1 -{2}[1%N]add0n eqn_modDr mod0n.
by exists L, (z ^+ (#|L|.-1 %/ n)); split=> //; apply: dvdn_prim_root.
Qed.

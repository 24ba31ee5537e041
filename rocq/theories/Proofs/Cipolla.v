(** Square roots in the quadratic extension (the case p = 1 mod 8 of square_root_mod_prime). *)
Set Warnings "-notation-overridden,-ambiguous-paths".
From Coq Require Import ZArith Znumtheory Zpow_facts Lia List.
From mathcomp Require Import all_ssreflect all_fingroup all_solvable all_algebra finfield.
From Verif Require Import Spec.NumberSpec Model.Py Model.NumberTheory Proofs.Bridge Proofs.QuadRec Proofs.Legendre Proofs.NTPoly.
Set Implicit Arguments. Unset Strict Implicit. Unset Printing Implicit Defensive.
Import GRing.Theory Num.Theory.
Delimit Scope Z_scope with Z.
Local Open Scope ring_scope.

Lemma mc_ring (R : comRingType) : ring_theory (0 : R) 1 +%R *%R (fun x y => x - y) -%R eq.
Proof.
split=> *; rewrite ?add0r ?mul1r ?subrr ?addrA ?mulrA ?mulrDl //; by [exact: addrC|exact: mulrC].
Qed.
Lemma kpow_exp (R : comRingType) (t : R) n : kpow 1 *%R t n = t ^+ n.
Proof. by elim: n => [|n IH] /=; rewrite ?expr0 // exprS IH. Qed.

Section Alg.
Context {K : Type} (k0 k1 : K) (kadd kmul ksub : K -> K -> K) (kopp : K -> K).
Context (Kring : ring_theory k0 k1 kadd kmul ksub kopp (@Logic.eq K)).
Add Ring K : Kring.
Lemma alg_root t b d a two : kmul two t = kadd b d -> two = kadd k1 k1 -> kmul d d = ksub (kmul b b) (kmul (kmul two two) a) ->
  kmul (kmul two two) (kadd (ksub (kmul t t) (kmul b t)) a) = k0.
Proof.
  intros E T D. transitivity (kadd (ksub (kmul (kmul two t) (kmul two t)) (kmul (kmul two b) (kmul two t))) (kmul (kmul two two) a)); [ring|].
  rewrite E. transitivity (kadd (ksub (kadd (kadd (kmul b b) (kmul two (kmul b d))) (kmul d d)) (kmul (kmul two b) (kadd b d))) (kmul (kmul two two) a)); [rewrite T; ring|].
  rewrite D T; ring.
Qed.
Lemma alg_norm b d : kmul (kadd b d) (ksub b d) = ksub (kmul b b) (kmul d d). Proof. ring. Qed.
Lemma alg_sub x y : ksub x (ksub x y) = y. Proof. ring. Qed.
End Alg.
Lemma sqm1 p : (p ^ 2).-1 = (p.-1 * p.+1)%N.
Proof. by rewrite -subn1 -[X in (_ - X)%N](exp1n 2) subn_sqr subn1 addn1. Qed.

(** field elements that are roots of unity of order dividing p - 1 have square roots in GF(p^2) *)
Lemma ext_sqrt (L : finFieldType) (p : nat) (d : L) : #|L| = (p ^ 2)%N -> odd p -> (1 < p)%N -> d ^+ p.-1 = 1 -> exists x : L, d = x ^+ 2.
Proof.
move=> cL op p1 hd; have [z hz] := fin_prim_root L.
have d1 : d ^+ #|L|.-1 = 1.
  have -> : #|L|.-1 = (p.-1 * p.+1)%N by rewrite cL sqm1.
  by rewrite exprM hd expr1n.
have L1 : (0 < #|L|.-1)%N by rewrite cL -subn1 subn_gt0 -(exp1n 2) ltn_exp2r.
have [j e] := prim_rootP hz d1; move: (nat_of_ord j) e => i e {j}.
have : (#|L|.-1 %| i * p.-1)%N.
  by rewrite (prim_order_dvd hz) exprM -e hd.
have -> : #|L|.-1 = (p.+1 * p.-1)%N by rewrite cL sqm1 mulnC.
rewrite dvdn_pmul2r; last by case: p p1 {cL hd op} => [|[]].
move=> hi; have : (2 %| i)%N by apply: dvdn_trans hi; rewrite dvdn2 /= op.
by move=> /dvdnP [k ek]; exists (z ^+ k); rewrite -exprM -ek.
Qed.

Section P.
Variables (P : Z) (prP : Znumtheory.prime P) (oddP : (P mod 2 = 1)%Z).
Let p := Z.to_nat P.
Lemma cipolla a b fuel : (3 < P)%Z -> lz P a = 1%Z -> lz P (b * b - 4 * a)%Z = (-1)%Z -> ((P + 1) / 2 < 2 ^ Z.of_nat fuel)%Z ->
  exists r, polynomial_exp_mod fuel (0 :: 1 :: nil)%Z ((P + 1) / 2)%Z (a :: - b :: 1 :: nil)%Z P = Ok r /\
    (forall c0 c1, r = (c0 :: c1 :: nil) -> (c1 mod P = 0)%Z /\ (c0 * c0 mod P = a mod P)%Z).
Proof.
move=> P3 la lb hf; have pp := P_p prP; have pr := pr_p prP; have op := odd_p prP oddP; rewrite -/p in pp pr op.
have p1 := prime_gt1 pr.
have [L chL cL] := PrimePowerField pr (isT : 0 < 2)%N.
pose z := zr L.
have zeq x y : z x = z y <-> (x mod P = y mod P)%Z by rewrite pp; exact: zr_eq chL _ _.
have zeq0 x : z x = 0 <-> (x mod P = 0)%Z by rewrite pp; exact: zr_eq0 chL _.
set d := (b * b - 4 * a)%Z.
have zp x : (z x) ^+ p = z x.
  have h : (x ^ P mod P = x mod P)%Z by apply/(zFp_eq prP); rewrite zr_pow; [exact: fermat|lia].
  by rewrite /z -zr_pow; [apply/zeq|lia].
have dh : z d ^+ p./2 = -1.
  rewrite half_p // -zr_pow; last by apply: Z_div_pos; lia.
  by rewrite -[-1]/(z (-1)%Z); apply/zeq; rewrite euler_val // lb.
have pe : p = (p./2).*2.+1 by rewrite -{1}(odd_double_half p) op.
have [delta ed] : exists x : L, z d = x ^+ 2.
  apply: (ext_sqrt cL op p1); by rewrite pe /= -muln2 exprM dh expr2 mulrNN mulr1.
have dp : delta ^+ p = - delta.
  by rewrite {1}pe exprS -mul2n exprM -ed dh mulrN1.
have two : (2%:R : L) != 0.
  apply/eqP => h; have /zeq0 : z 2%Z = 0 by []. rewrite Z.mod_small //; lia.
have twop : (2%:R : L) ^+ p = 2%:R by exact: (zp 2%Z).
set t := (z b + delta) / 2%:R.
have tp : t ^+ p = (z b - delta) / 2%:R.
  by rewrite /t expr_div_n twop -(Frobenius_autE chL) rmorphD /= !Frobenius_autE zp dp.
have z4 : z 4%Z = 2%:R * 2%:R by rewrite /z -[4%Z]/(2 * 2)%Z zr_mul.
have ed' : delta * delta = z b * z b - z 4%Z * z a by rewrite -expr2 -ed /z /d zr_sub !zr_mul.
have tt : 2%:R * t = z b + delta by rewrite /t mulrC divfK.
have E1 : t ^+ p.+1 = z a.
  rewrite exprSr tp mulrC /t mulrACA -invfM -z4 (alg_norm (mc_ring L)) ed' (alg_sub (mc_ring L)).
  by rewrite mulrC mulKf // z4 mulf_neq0.
have root : t * t - z b * t + z a = 0.
  apply: (mulfI (mulf_neq0 two two)); rewrite mulr0; apply: (alg_root (mc_ring L)) tt _ _ => //.
  by rewrite ed' z4.
have half2 : (Z.to_nat ((P + 1) / 2) * 2 = p.+1)%N.
  have h : ((P + 1) / 2 * 2 = P + 1)%Z by move: oddP; Z.to_euclidean_division_equations; lia.
  apply: Nat2Z.inj; rewrite -multE Nat2Z.inj_mul Z2Nat.id; last by apply: Z_div_pos; lia.
  rewrite h; lia.
have [r [Er [_ [q [h C]]]]] := @exp_mod_spec L 0 1 +%R *%R (fun x y => x - y) -%R (mc_ring L) z (zr0 L) (zr1 L) (zr_add L) (zr_mul L)
  (a :: - b :: 1 :: nil)%Z P ltac:(lia) erefl ltac:(simpl; lia) fuel (0 :: 1 :: nil)%Z ((P + 1) / 2)%Z
  ltac:(clear - P3; Z.to_euclidean_division_equations; lia) (fun _ => hf).
exists r; split => // c0 c1 er; move: (C t); rewrite er (@pe_ppow L 0 1 +%R *%R (fun x y => x - y) -%R (mc_ring L) z (zr0 L) (zr1 L) (zr_add L) (zr_mul L)) kpow_exp.
have -> : z P = 0 by rewrite pp; exact: char_p.
rewrite /NTPoly.pe /= -/z.
rewrite mul0r !mulr0 !addr0 add0r -[(Pos.to_nat 1)%:R]/(1 : L) !mulr1.
have -> : z (- b)%Z = - z b by exact: zr_opp.
have -> : z a + t * (- z b + t) = 0 by rewrite -root addrC mulrDr mulrN [t * z b]mulrC [_ + t * t]addrC.
rewrite mulr0 addr0 => E.
set u := t ^+ Z.to_nat ((P + 1) / 2) in E.
have uu : u ^+ 2 = z a by rewrite /u -exprM half2.
have a0 : (a mod P <> 0)%Z by move=> h0; move: la; rewrite lz_0.
have [x' ex] : exists x', u = z x'.
  have [x ex] : square_mod a P by apply/(lz_square prP oddP).
  have : u ^+ 2 == (z x) ^+ 2.
    by move/zeq0: ex; rewrite /z zr_sub zr_mul => /eqP; rewrite subr_eq0 uu expr2 eq_sym.
  rewrite eqf_sqr => /orP [] /eqP ->; [by exists x|by exists (- x)%Z; rewrite /z zr_opp].
rewrite ex in E uu.
have H : z c1 * delta = z (2 * x' - 2 * c0 - c1 * b)%Z.
  have -> : delta = 2%:R * t - z b by rewrite tt addrAC subrr add0r.
  rewrite /z !zr_sub !zr_mul -[zr L 2%Z]/(2%:R : L) -/z -E mulrBr mulrDr; congr (_ - _).
  by rewrite [2%:R * z c0 + _]addrC addrK mulrCA [z c1 * t]mulrC.
have c1z : (c1 mod P = 0)%Z.
  set X := (2 * x' - 2 * c0 - c1 * b)%Z in H.
  have : z (c1 * c1 * d)%Z = z (X * X)%Z by rewrite /z !zr_mul -/z -H ed expr2 mulrACA.
  move=> /zeq /(lz_mod prP); rewrite !lz_mul // lb => e.
  case: (Z.eqb_spec (c1 mod P) 0) => // h0.
  move: e; rewrite {1 2}/lz; case: Z.eqb_spec => // _; case: (_ =? _)%Z => /=; nia.
split => //; apply/zeq; rewrite /z zr_mul -/z.
by have := E; rewrite (proj2 (zeq0 c1) c1z) mulr0 addr0 => ->; rewrite -expr2.
Qed.
End P.

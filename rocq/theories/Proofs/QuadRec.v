(** Euler's criterion and quadratic reciprocity, in mathcomp. *)
Set Warnings "-notation-overridden,-ambiguous-paths".
From mathcomp Require Import all_ssreflect all_fingroup all_solvable all_algebra finfield.
From Verif Require Import Proofs.Bridge.
Set Implicit Arguments. Unset Strict Implicit. Unset Printing Implicit Defensive.
Import GRing.Theory.
Local Open Scope ring_scope.

(** ** Euler's criterion in a finite field *)
Section Euler.
Variables (F : finFieldType) (h : nat).
Hypothesis card : #|F| = (h.*2).+1.
Hypothesis h0 : (0 < h)%N.

Lemma euler_pm (x : F) : x != 0 -> x ^+ h = 1 \/ x ^+ h = -1.
Proof.
move=> nz; have : x ^+ h.*2 = 1.
  by apply: (mulIf nz); rewrite mul1r -exprSr -card expf_card.
by rewrite -muln2 exprM => /eqP; rewrite sqrf_eq1 => /orP [] /eqP; auto.
Qed.
Lemma euler (x : F) : x != 0 -> (x ^+ h = 1 <-> exists y, x = y ^+ 2).
Proof.
move=> nz; split=> [e|[y e]].
  have [z hz] := fin_prim_root F; rewrite card /= in hz.
  have xn1 : x ^+ h.*2 = 1 by rewrite -muln2 exprM e expr1n.
  have [[i /= _] xi] := prim_rootP hz xn1.
  move: e; rewrite xi -exprM => /eqP; rewrite -(prim_order_dvd hz) -muln2 mulnC dvdn_pmul2r //.
  move=> /dvdnP [k hk]; exists (z ^+ k); by rewrite -exprM -hk.
rewrite e -exprM mul2n; have y0 : y != 0 by apply: contraNneq nz => y0; rewrite e y0 expr0n.
by apply: (mulIf y0); rewrite mul1r -exprSr -card expf_card.
Qed.
End Euler.

(** ** The quadratic character of 'F_q with values in another ring *)
Section Chi.
Variables (q : nat) (prq : prime.prime q) (oddq : odd q).
Definition chi (L : ringType) (x : 'F_q) : L :=
  if x == 0 then 0 else if x ^+ q./2 == 1 then 1 else -1.
Lemma q_half : q = (q./2.*2).+1.
Proof. by rewrite -[LHS]odd_double_half oddq. Qed.
Lemma half_gt0 : (0 < q./2)%N.
Proof. by have := prime_gt1 prq; rewrite q_half; case: (q./2). Qed.
Lemma cardq : #|[finType of 'F_q]| = (q./2.*2).+1.
Proof. by rewrite card_Fp // -q_half. Qed.
Lemma one_neq : (1 : 'F_q) != -1.
Proof.
rewrite -subr_eq0 opprK -mulr2n -(dvdn_charf (char_Fp prq)).
apply/negP => /dvdn_leq -/(_ isT); have := prime_gt1 prq; rewrite q_half; move: half_gt0; case: (q./2) => //.
Qed.
Lemma chi_pm (x : 'F_q) : x != 0 -> x ^+ q./2 = 1 \/ x ^+ q./2 = -1.
Proof. exact: (euler_pm cardq). Qed.
Lemma chiM L : {morph chi L : x y / x * y}.
Proof.
move=> x y; rewrite /chi mulf_eq0; case: eqP => [_|/eqP x0] /=; first by rewrite mul0r.
case: eqP => [_|/eqP y0]; first by rewrite mulr0.
rewrite exprMn; have oq := one_neq; rewrite eq_sym in oq.
case: (chi_pm x0) => ->; case: (chi_pm y0) => ->; rewrite ?mul1r ?mulr1 ?mulN1r ?opprK ?eqxx ?(negbTE oq) // ?mulrNN ?mulr1 ?mulN1r //.
Qed.
Lemma chi1 L : chi L 1 = 1.
Proof. by rewrite /chi oner_eq0 expr1n eqxx. Qed.
Lemma chi0 L : chi L 0 = 0.
Proof. by rewrite /chi eqxx. Qed.
Lemma chi_sq L x : x != 0 -> chi L x ^+ 2 = 1.
Proof. by move=> nz; rewrite /chi (negbTE nz); case: ifP => _; rewrite ?expr1n // sqrrN expr1n. Qed.
Lemma chiV L x : chi L x^-1 = chi L x.
Proof.
have [->|nz] := eqVneq x 0; first by rewrite invr0.
have : chi L x * chi L x^-1 = 1 by rewrite -chiM mulfV // chi1.
move=> e; rewrite -[LHS]mul1r -(chi_sq L nz) expr2 -mulrA e mulr1 //.
Qed.
(** a non-residue exists *)
Lemma nonres (L : ringType) : (1 : L) != -1 -> exists2 b : 'F_q, b != 0 & chi L b = -1.
Proof.
move=> _; have [z hz] := fin_prim_root [finFieldType of 'F_q]; rewrite cardq /= in hz.
have z0 : z != 0.
  apply/negP => /eqP e; have := prim_expr_order hz; rewrite e expr0n /=.
  have := half_gt0; case: (q./2) => //= n _ /eqP; by rewrite eq_sym oner_eq0.
exists z => //; rewrite /chi (negbTE z0); case: eqP => // /eqP.
rewrite -(prim_order_dvd hz) => /dvdn_leq; rewrite half_gt0 => /(_ isT).
by rewrite leqNgt -addnn -addn1 leq_add2l half_gt0.
Qed.
Lemma sum_chi (L : idomainType) : (1 : L) != -1 -> \sum_(x : 'F_q) chi L x = 0.
Proof.
move=> hL; have [b b0 hb] := nonres hL.
have : \sum_(x : 'F_q) chi L x = - \sum_(x : 'F_q) chi L x.
  rewrite {1}(reindex_inj (mulfI b0)) /= -sumrN; apply: eq_bigr => x _.
  by rewrite chiM hb mulN1r.
move=> /eqP; rewrite -subr_eq0 opprK -mulr2n -mulr_natl mulf_eq0 => /orP [|/eqP //].
move: hL; rewrite -subr_eq0 opprK => /negbTE; by rewrite -[1 + 1]/(2%:R) => ->.
Qed.
End Chi.

(** ** Gauss sums *)
Section Gauss.
Variables (p q : nat) (prp : prime.prime p) (prq : prime.prime q) (oddp : odd p) (oddq : odd q) (neq : p != q).
Variables (L : fieldType) (z : L) (charL : p \in [char L]) (hz : q.-primitive_root z).

Lemma oneL : (1 : L) != -1.
Proof.
rewrite -subr_eq0 opprK -[1 + 1]/(2%:R) -(dvdn_charf charL).
apply/negP => /dvdn_leq -/(_ isT); move: (prime_gt1 prp) oddp; by case: (p) => [|[|[|]]].
Qed.
(** z ^ x for x in 'F_q *)
Definition zx (x : 'F_q) : L := z ^+ x.
Lemma zxD x y : zx (x + y) = zx x * zx y.
Proof.
rewrite /zx -exprD -(prim_expr_mod hz (x + y)); congr (_ ^+ _).
by rewrite /= [X in (_ %% X)%N = _]Fp_cast.
Qed.
Lemma zx_nat n : zx n%:R = z ^+ n.
Proof.
by rewrite /zx /= val_Fp_nat // (prim_expr_mod hz).
Qed.
Lemma zx0 : zx 0 = 1. Proof. by rewrite /zx expr0. Qed.
Lemma sum_zx (t : 'F_q) : \sum_(x : 'F_q) zx (x * t) = if t == 0 then q%:R else 0.
Proof.
case: eqP => [->|/eqP t0].
  rewrite (eq_bigr (fun _ => 1)); last by move=> x _; rewrite mulr0 zx0.
  by rewrite sumr_const card_Fp.
rewrite -(reindex_inj (mulIf t0) (P := xpredT) (F := zx)) /=.
have : \sum_(x : 'F_q) zx x = z * \sum_(x : 'F_q) zx x.
  rewrite {1}(reindex_inj (addIr 1)) /= mulr_sumr; apply: eq_bigr => x _.
  by rewrite zxD -[1]/(1%:R) zx_nat expr1 mulrC.
move=> /eqP; rewrite -subr_eq0 -{1}[\sum_(_ : _) _]mul1r -mulrBl mulf_eq0 => /orP [|/eqP //].
rewrite subr_eq0 eq_sym -[z]expr1 -(prim_order_dvd hz) dvdn1 => /eqP e.
by suff: false by []; move: (prime_gt1 prq); rewrite e.
Qed.
Definition G : L := \sum_(x : 'F_q) chi L x * zx x.
Lemma qL : (q%:R : L) != 0.
Proof.
rewrite -(dvdn_charf charL) (dvdn_prime2 prp prq); exact: neq.
Qed.
Lemma G_sq : G ^+ 2 = chi L (-1 : 'F_q) * q%:R.
Proof.
rewrite expr2 {1}/G mulr_suml.
transitivity (\sum_(x : 'F_q) \sum_(t : 'F_q) chi L t * zx (x * (1 + t)) * chi L x ^+ 2).
  apply: eq_bigr => x _; have [->|x0] := eqVneq x 0.
    rewrite chi0 !mul0r big1 // => t _; by rewrite expr0n /= mulr0.
  rewrite /G mulr_sumr (reindex_inj (mulfI x0)) /=; apply: eq_bigr => t _.
  rewrite mulrDr mulr1 zxD chiM // expr2.
  move: (chi L x) (chi L t) (zx x) (zx (x * t)) => a b c d.
  by rewrite mulrACA [RHS]mulrC !mulrA.
rewrite exchange_big /=.
transitivity (\sum_(t : 'F_q) chi L t * ((\sum_(x : 'F_q) zx (x * (1 + t))) - 1)).
  apply: eq_bigr => t _; rewrite (bigD1 0) //= chi0 expr0n /= mulr0 add0r.
  rewrite [in RHS](bigD1 0) //= mul0r zx0 [1 + \sum_(_ | _) _]addrC addrK mulr_sumr.
  apply: eq_bigr => x x0; by rewrite (chi_sq L x0) mulr1.
under eq_bigr => t _ do rewrite mulrBr mulr1 sum_zx.
rewrite sumrB sum_chi ?oneL // subr0 (bigD1 (-1)) //= subrr eqxx big1 ?addr0 // => t ht.
by rewrite addrC addr_eq0 (negbTE ht) mulr0.
Qed.
Lemma chi_p x : chi L x ^+ p = chi L (x : 'F_q).
Proof.
rewrite /chi; case: ifP => _; first by rewrite expr0n; case: (p) (prime_gt0 prp).
case: ifP => _; first by rewrite expr1n.
by rewrite exprNn expr1n mulr1 -signr_odd oddp expr1.
Qed.
Lemma G_p : G ^+ p = chi L (p%:R : 'F_q) * G.
Proof.
have p0 : (p%:R : 'F_q) != 0 by rewrite -(dvdn_charf (char_Fp prq)) (dvdn_prime2 prq prp) eq_sym; exact: neq.
rewrite -(Frobenius_autE charL) /G rmorph_sum /= mulr_sumr [RHS](reindex_inj (mulIf p0)) /=.
apply: eq_bigr => x _; rewrite Frobenius_autE exprMn chi_p chiM // mulrA.
rewrite [chi L _ * (_ * _)]mulrCA -expr2 (chi_sq L p0) // mulr1; congr (_ * _).
rewrite /zx -exprM -[LHS](prim_expr_mod hz); congr (_ ^+ _).
by rewrite -[in RHS](natr_Zp x) -natrM val_Fp_nat.
Qed.
Lemma qr_aux : chi L (p%:R : 'F_q) = chi L (-1 : 'F_q) ^+ p./2 * q%:R ^+ p./2.
Proof.
have G0 : G != 0.
  apply/negP => /eqP e; have := G_sq; rewrite e expr0n /= => /esym /eqP.
  rewrite mulf_eq0 (negbTE qL) orbF => /eqP c.
  have := @chi_sq q L (-1); rewrite c expr0n /= oppr_eq0 oner_eq0 => /(_ isT) /eqP.
  by rewrite eq_sym oner_eq0.
apply: (mulIf G0); by rewrite -G_p {1}(q_half oddp) exprS -muln2 mulnC exprM G_sq exprMn [LHS]mulrC.
Qed.
End Gauss.

(** quadratic reciprocity: the product of the two characters, as integers mod p *)
Lemma quadratic_reciprocity (p q : nat) : prime.prime p -> prime.prime q -> odd p -> odd q -> p != q ->
  forall R : ringType, chi R (p%:R : 'F_q) * chi R (q%:R : 'F_p) = (-1) ^+ (p./2 * q./2).
Proof.
move=> prp prq op oq neq R.
have cop : coprime p q by rewrite prime_coprime // dvdn_prime2.
have [L [z [charL hz]]] := ext_root prp (prime_gt0 prq) cop.
have E := qr_aux prp prq op oq neq charL hz.
have oL := oneL prp op charL.
pose sg (b : bool) : L := if b then 1 else -1.
have q0 : (q%:R : 'F_p) != 0 by rewrite -(dvdn_charf (char_Fp prp)) dvdn_prime2.
have p0 : (p%:R : 'F_q) != 0 by rewrite -(dvdn_charf (char_Fp prq)) dvdn_prime2 // eq_sym.
have N1 : (-1 : 'F_q) != 0 by rewrite oppr_eq0 oner_eq0.
(* q^((p-1)/2) in L *)
have Q : (q%:R : L) ^+ p./2 = chi L (q%:R : 'F_p).
  have H : forall (x : nat) (s : bool), (x%:R : 'F_p) = (-1) ^+ s -> (x%:R : L) = (-1) ^+ s.
    move=> x [] /= e.
      have : (p %| x.+1)%N by rewrite (dvdn_charf (char_Fp prp)) -addn1 natrD e expr1 addNr.
      rewrite (dvdn_charf charL) -addn1 natrD addr_eq0 => /eqP ->; by rewrite expr1.
    have : (p %| x + p.-1)%N.
      rewrite (dvdn_charf (char_Fp prp)) natrD e expr0 -[1]/(1%:R) -natrD add1n prednK ?prime_gt0 //.
      by rewrite (charf0 (char_Fp prp)).
    rewrite (dvdn_charf charL) natrD; have -> : (p.-1%:R : L) = -1.
      apply/eqP; rewrite -addr_eq0 -[1]/(1%:R) -natrD addn1 prednK ?prime_gt0 //.
      by rewrite (charf0 charL).
    rewrite subr_eq0 => /eqP ->; by rewrite expr0.
  rewrite -natrX /chi (negbTE q0); case: (chi_pm prp op q0) => e; rewrite e.
    rewrite eqxx; apply: (H _ false); by rewrite natrX e.
  have oF := one_neq prp op; rewrite eq_sym in oF; rewrite (negbTE oF).
  rewrite -[RHS]expr1; apply: (H _ true); by rewrite natrX e.
rewrite Q in E.
(* chi(-1) *)
have M : forall R' : ringType, chi R' (-1 : 'F_q) = (-1) ^+ q./2.
  move=> R'; rewrite /chi (negbTE N1) -signr_odd -[in RHS]signr_odd; case: (odd _) => //=; rewrite ?expr0 ?expr1 ?eqxx //.
  have oF := one_neq prq oq; rewrite eq_sym in oF; by rewrite (negbTE oF).
rewrite M -exprM mulnC in E.
move: E; rewrite /chi (negbTE q0) (negbTE p0) -signr_odd -[in X in _ -> X]signr_odd.
rewrite eq_sym in oL.
by do 2!case: eqP => _; case: (odd _); rewrite /= ?expr0 ?expr1 ?mulN1r ?mul1r ?mulr1 ?opprK //;
  move=> /eqP; rewrite ?(negbTE oL) // eq_sym (negbTE oL).
Qed.
(** -1 *)
Lemma chi_minus1 (q : nat) (R : ringType) : prime.prime q -> odd q -> chi R (-1 : 'F_q) = (-1) ^+ q./2.
Proof.
move=> prq oq; have N1 : (-1 : 'F_q) != 0 by rewrite oppr_eq0 oner_eq0.
rewrite /chi (negbTE N1) -signr_odd -[in RHS]signr_odd; case: (odd _) => //=; rewrite ?expr0 ?expr1 ?eqxx //.
have oF := one_neq prq oq; rewrite eq_sym in oF; by rewrite (negbTE oF).
Qed.
(** 2 *)
Lemma chi_2 (p : nat) (R : ringType) : prime.prime p -> odd p ->
  chi R (2%:R : 'F_p) = if (p %% 8 == 1)%N || (p %% 8 == 7)%N then 1 else -1.
Proof.
move=> prp op.
have cop : coprime p 8 by rewrite (@coprimeXr 3 p 2) // coprimen2.
have [L [z [charL hz]]] := ext_root prp (n := 8) isT cop.
have oL := oneL prp op charL.
have z4 : z ^+ 4 = -1.
  have : (z ^+ 4) ^+ 2 = 1 by rewrite -exprM (prim_expr_order hz).
  move=> /eqP; rewrite sqrf_eq1 -(prim_order_dvd hz) => /orP [] // /eqP //.
have z0 : z != 0.
  by apply/negP => /eqP e; have := prim_expr_order hz; rewrite e expr0n /= => /eqP; rewrite eq_sym oner_eq0.
pose y := z + z ^+ 7.
have y2 : y ^+ 2 = 2%:R.
  rewrite /y sqrrD -exprS (prim_expr_order hz) -exprM -[(7 * 2)%N]/(8 + 6)%N exprD (prim_expr_order hz) mul1r.
  by rewrite -[6%N]/(4 + 2)%N exprD z4 mulN1r addrAC subrr add0r.
have two0 : (2%:R : L) != 0 by move: oL; rewrite -subr_eq0 opprK.
have y0 : y != 0 by apply/negP => /eqP e; move: y2; rewrite e expr0n /= => /esym /eqP; rewrite (negbTE two0).
have yp : y ^+ p = (if (p %% 8 == 1)%N || (p %% 8 == 7)%N then 1 else -1) * y.
  rewrite -(Frobenius_autE charL) rmorphD /= rmorphX /= !Frobenius_autE -[z ^+ p](prim_expr_mod hz).
  have : odd (p %% 8) by rewrite (@odd_mod p 8).
  have : (p %% 8 < 8)%N by rewrite ltn_mod.
  have z8 k : z ^+ (8 + k) = z ^+ k by rewrite exprD (prim_expr_order hz) mul1r.
  have z7 : z ^+ 5 = - z by rewrite -[5%N]/(4 + 1)%N exprD z4 mulN1r expr1.
  have z3 : z ^+ 7 = - z ^+ 3 by rewrite -[7%N]/(4 + 3)%N exprD z4 mulN1r.
  case: (p %% 8)%N => [|[|[|[|[|[|[|[|]]]]]]]] //= _ _; rewrite ?expr1 ?mul1r ?mulN1r //.
  - rewrite -exprM -[(3 * 7)%N]/(8 + (8 + 5))%N !z8 z7 /y opprD z3 opprK addrC //.
  - rewrite -exprM -[(5 * 7)%N]/(8 + (8 + (8 + (8 + 3))))%N !z8 z7 /y opprD z3 opprK //.
  - rewrite -exprM -[(7 * 7)%N]/(8 + (8 + (8 + (8 + (8 + (8 + 1))))))%N !z8 expr1 /y addrC //.
have E : (2%:R : L) ^+ p./2 = if (p %% 8 == 1)%N || (p %% 8 == 7)%N then 1 else -1.
  by apply: (mulIf y0); rewrite -yp {2}(q_half op) exprSr -muln2 mulnC exprM y2.
have n2 : (2%:R : 'F_p) != 0.
  rewrite -(dvdn_charf (char_Fp prp)); apply/negP => /dvdn_leq -/(_ isT); move: (prime_gt1 prp) op; by case: (p) => [|[|[|]]].
have Q : ((2%:R : 'F_p) ^+ p./2 == 1) = ((2%:R : L) ^+ p./2 == 1).
  have H (K : ringType) : p \in [char K] -> forall n, (0 < n)%N -> (n%:R == 1 :> K) = (p %| n.-1)%N.
    by move=> cK [|n] // _; rewrite -addn1 natrD -subr_eq0 addrK -(dvdn_charf cK) addn1.
  by rewrite -!natrX (H _ (char_Fp prp)) ?(H _ charL) ?expn_gt0.
rewrite /chi (negbTE n2) Q E; case: (_ || _); first by rewrite eqxx.
by rewrite eq_sym (negbTE oL).
Qed.

(** scalar_multiple on a curve whose attribute n is four times the odd order of the point. *)
From Coq Require Import Znumtheory Setoid Lia.
From Verif Require Import Proofs.Tac Proofs.Cong Proofs.Primality Proofs.NTBasic Proofs.Fp Proofs.ECGroup Proofs.Curve Proofs.CurveProg Proofs.ScalarMul.
From Verif Require Import Model.Py Model.NumberTheory Model.Ecc Spec.CurveSpec Spec.CurveView.
Local Open Scope Z_scope.

Lemma digit3 e : digit_val e 3 = 3 * e / 8 - e / 8.
Proof. reflexivity. Qed.
Lemma digit2 e : digit_val e 2 = 3 * e / 4 - e / 4.
Proof. reflexivity. Qed.
Lemma digit_high e t : 0 < e -> 4 <= t <= Z.log2 (3 * e) -> 8 * digit_val e t < e + 8.
Proof.
  intros E T. unfold digit_val. assert (M : 2 ^ 4 <= 2 ^ t) by (apply Z.pow_le_mono_r; lia). change (2 ^ 4) with 16 in M.
  set (D := 2 ^ t) in *. assert (Q1 := Z.div_mod (3 * e) D ltac:(lia)). assert (Q2 := Z.div_mod e D ltac:(lia)).
  assert (R1 := Z.mod_pos_bound (3 * e) D ltac:(lia)). assert (R2 := Z.mod_pos_bound e D ltac:(lia)).
  set (q := 3 * e / D) in *. set (q' := e / D) in *. set (r := (3 * e) mod D) in *. set (r' := e mod D) in *.
  assert (V : D * (q - q') = 2 * e - r + r') by lia. clearbody q q' r r' D. set (v := q - q') in *. nia.
Qed.
(** the prefixes of the signed digits of e that are multiples of q *)
Lemma prefix_zero q e t : 3 <= q -> q mod 2 = 1 -> 0 < e < 4 * q -> 2 <= t <= Z.log2 (3 * e) -> (q | 2 * digit_val e t) ->
  (e = 2 * q /\ t = 2) \/ (e = 4 * q - 1 /\ t <= 3).
Proof.
  intros Q O E T D. apply Gauss in D.
  2:{ apply Zgcd_1_rel_prime. rewrite Z.gcd_comm. apply Zgcd_1_rel_prime. apply prime_rel_prime; [exact prime_2|]. intros (z & Z0). subst q. rewrite Z.mod_mul in O by lia. lia. }
  destruct (digit_bounds e t) as (A & B & C); [lia|exact T|]. destruct D as (k & K).
  assert (KK : k = 1 \/ k = 2) by nia. destruct (Z.le_gt_cases 4 t) as [H4|H4].
  { assert (H := digit_high e t ltac:(lia) ltac:(lia)). exfalso. destruct KK; subst k; lia. }
  assert (TT : t = 2 \/ t = 3) by lia. destruct TT; subst t; [rewrite digit2 in *|rewrite digit3 in *]; destruct KK; subst k; clear T C; Z.to_euclidean_division_equations; lia.
Qed.

Section Cofactor.
Context (c : curve) (HE : elliptic c) (q : Z) (Hq : c_n c = 4 * q) (Q3 : 3 <= q) (Qo : q mod 2 = 1).
Local Notation p := (c_p c).
Local Notation a := (c_a c).
Local Notation b := (c_b c).
Lemma cofactor_ok P k fuel : valid c P -> ec_order p a (denotes c P) q -> (mul_fuel c <= fuel)%nat ->
  (k mod c_n c <> 2 * q -> k mod c_n c <> 4 * q - 1 ->
   exists R, scalar_multiple fuel c P k = Ok R /\ valid c R /\ ec_zmultiple p a (denotes c P) k (denotes c R)) /\
  (k mod c_n c = 2 * q \/ k mod c_n c = 4 * q - 1 -> scalar_multiple fuel c P k = Raise TypeError).
Proof.
  destruct HE as (Hp & p3 & NS). intros V ORD F. unfold mul_fuel in F. assert (OP := valid_on c p3 P V).
  destruct (order_zmul p Hp p3 a b NS _ _ OP ORD) as (N1 & Hn). assert (G := gon_g c Hp p3 P V).
  unfold scalar_multiple, py_mod. rewrite Hq in *. replace (4 * q =? 0) with false by lia. cbn [bind].
  assert (R := Z.mod_pos_bound k (4 * q) ltac:(lia)). assert (E := zmul_mod p Hp p3 a b NS (4 * q) k _ G ltac:(lia) (proj2 (Hn _) (Z.divide_factor_r _ _))).
  set (e := k mod (4 * q)) in *.
  destruct (Z.eqb_spec e 0) as [E0|E0].
  { rewrite E0 in *. split; [|intros; exfalso; lia]. intros _ _. exists Inf. split; [reflexivity|]. split; [exact I|].
    apply (zmultiple_iff p Hp p3 a b); [exact OP|exact I|]. rewrite <- E. reflexivity. }
  destruct P as [|x y].
  { exfalso. assert (D : (q | 1)) by (apply Hn; reflexivity). apply Z.divide_1_r_nonneg in D; lia. }
  replace (0 <? e) with true by (clear - R E0; lia). cbn [py_assert bind]. rewrite (neg_ok c p3 (Aff x y) x y eq_refl V). cbn [bind].
  assert (L3 : Z.log2 (3 * e) <= Z.log2 (3 * (4 * q))) by (apply Z.log2_le_mono; clear - R; lia).
  rewrite leftmost_bit_ok; [|clear - R E0; lia|clear - F L3; lia]. cbn [bind].
  assert (L : 1 <= Z.log2 (3 * e)) by (apply Z.log2_le_pow2; lia). set (J := Z.log2 (3 * e)) in *.
  assert (HALF : 2 ^ J / 2 = 2 ^ (J - 1)).
  { replace J with (J - 1 + 1) at 1 by ring. rewrite Z.pow_add_r by lia. apply Z.div_mul. discriminate. }
  rewrite HALF. assert (PE : 0 < e) by (clear - R E0; lia).
  assert (START : forall j', 0 <= j' <= J - 1 -> h p (denotes c (Aff x y)) = zmul p a (digit_val e (j' + Z.of_nat (Z.to_nat (J - 1 - j')) + 1)) (h p (denotes c (Aff x y)))).
  { intros j' H. replace (j' + Z.of_nat (Z.to_nat (J - 1 - j')) + 1) with J by lia. unfold J. rewrite digit_first by lia. reflexivity. }
  split.
  - intros C1 C2. destruct (loop_to c Hp p3 NS fuel ltac:(clear - F; lia) (Aff x y) x y eq_refl V e 0 (Z.to_nat (J - 1 - 0)) fuel (Aff x y)) as (S & VS & _ & GS & ES).
    + clear - F L3. lia.
    + lia.
    + exact V.
    + apply START. lia.
    + intros t T Z0. apply Hn in Z0. apply prefix_zero in Z0; [lia|lia|exact Qo|lia|]. fold J. lia.
    + replace (0 + Z.of_nat (Z.to_nat (J - 1 - 0))) with (J - 1) in ES by lia. rewrite ES. exists S. change (2 ^ 0) with 1. change (0 + 1) with 1 in GS. rewrite digit_last in GS.
      split; [now destruct (fuel - Z.to_nat (J - 1 - 0))%nat|]. split; [exact VS|]. apply (zmultiple_iff p Hp p3 a b); [exact OP|now apply valid_on|]. congruence.
  - intros C. set (j' := if e =? 2 * q then 1 else 2).
    assert (J4 : 4 <= J).
    { apply Z.log2_le_pow2; [lia|]. change (2 ^ 4) with 16. lia. }
    destruct (loop_to c Hp p3 NS fuel ltac:(clear - F; lia) (Aff x y) x y eq_refl V e j' (Z.to_nat (J - 1 - j')) fuel (Aff x y)) as (S & VS & _ & GS & ES).
    + assert (0 <= j') by (subst j'; destruct (e =? 2 * q); lia). clear - F L3 H. lia.
    + subst j'. destruct (e =? 2 * q); lia.
    + exact V.
    + apply START. subst j'. destruct (e =? 2 * q); lia.
    + intros t T Z0. apply Hn in Z0. apply prefix_zero in Z0; [|lia|exact Qo|lia|subst j'; destruct (e =? 2 * q); lia]. subst j'. destruct (Z.eqb_spec e (2 * q)); lia.
    + replace (j' + Z.of_nat (Z.to_nat (J - 1 - j'))) with (J - 1) in ES by (subst j'; destruct (e =? 2 * q); lia). rewrite ES.
      assert (S = Inf).
      { assert (Z0 : h p (denotes c S) = O).
        { rewrite GS. apply Hn. exists 1. rewrite Z.mul_1_l. subst j'. destruct (Z.eqb_spec e (2 * q)) as [H|H].
          - change (1 + 1) with 2. rewrite digit2. clear - H Qo. Z.to_euclidean_division_equations; lia.
          - change (2 + 1) with 3. rewrite digit3. assert (e = 4 * q - 1) by lia. clear - H0 Qo. Z.to_euclidean_division_equations; lia. }
        destruct S; [reflexivity|discriminate Z0]. }
      subst S. destruct (fuel - Z.to_nat (J - 1 - j'))%nat eqn:FF; [subst j'; destruct (e =? 2 * q); clear - FF F L3 J4; lia|].
      cbn [scalar_loop]. replace (1 <? 2 ^ j') with true; [reflexivity|]. subst j'. destruct (e =? 2 * q); reflexivity.
Qed.
End Cofactor.

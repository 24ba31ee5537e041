(** C68-C70. *)
From Coq Require Import Znumtheory Setoid Lia List.
From Verif Require Import Proofs.Tac Proofs.Cong Proofs.Primality Proofs.NTBasic Proofs.Fp Proofs.ECGroup Proofs.Curve Proofs.Montgomery Proofs.Ladder Proofs.CurveFacts.
From Verif Require Import Model.Py Model.NumberTheory Model.Ecc Spec.CurveSpec Spec.MontgomerySpec.
Import ListNotations.
Local Open Scope Z_scope.

Lemma coord_loop p : forall f s, 0 <= p < 256 ^ Z.of_nat f -> exists t, coord_size_loop f p s = Ok t.
Proof.
  intros f. revert p. induction f as [|f IH]; intros p s H.
  - cbn in *. replace (0 <? p) with false by lia. eauto.
  - cbn [coord_size_loop]. destruct (0 <? p); [|eauto]. apply IH. rewrite Nat2Z.inj_succ, Z.pow_succ_r in H by lia. split; [apply Z.div_pos; lia|]. apply Z.div_lt_upper_bound; lia.
Qed.
Lemma coord_fuel p f : 0 <= p -> (Z.to_nat (Z.log2 p + 1) <= f)%nat -> exists t, coord_size f p = Ok t.
Proof.
  intros P H. unfold coord_size. replace (0 <=? p) with true by lia. cbn [py_assert bind]. apply coord_loop. split; [exact P|].
  destruct (Z.eq_dec p 0) as [->|N]; [apply Z.pow_pos_nonneg; lia|]. destruct (Z.log2_spec p) as (_ & L); [lia|]. unfold Z.succ in L.
  apply Z.lt_le_trans with (2 ^ (Z.log2 p + 1)); [exact L|]. assert (0 <= Z.log2 p) by apply Z.log2_nonneg. apply Z.le_trans with (256 ^ (Z.log2 p + 1)).
  - apply Z.pow_le_mono_l. lia.
  - apply Z.pow_le_mono_r; lia.
Qed.
Lemma c68_refuted : forall p a d, 2 < p -> exists fuel0, forall fuel, (fuel0 <= fuel)%nat -> te_init fuel p a d = Raise AssertionError.
Proof.
  intros p a d P. exists (Z.to_nat (Z.log2 p + 1)). intros fuel F. unfold te_init. destruct (coord_fuel p fuel ltac:(lia) F) as (t & ->). cbn [bind].
  unfold te_identity, te_point, te_on_curve. replace (a * (0 * 0) - 1 + -1 * (1 - d * (0 * 0) * -1)) with (-2) by ring.
  replace (-2 mod p =? 0) with false; [reflexivity|]. symmetry. apply Z.eqb_neq. rewrite <- (Z.mod_unique (-2) p (-1) (p - 2)); lia.
Qed.
(** the test of on_curve is y where the equation has y^2 *)
Lemma c68_equation_refuted : forall p a d, 2 < p -> (a * 0 ^ 2 + (-1) ^ 2 - (1 + d * 0 ^ 2 * (-1) ^ 2)) mod p = 0 /\ te_point p a d 0 (-1) = Raise AssertionError.
Proof.
  intros p a d P. split; [replace (a * 0 ^ 2 + (-1) ^ 2 - (1 + d * 0 ^ 2 * (-1) ^ 2)) with 0 by ring; apply Z.mod_0_l; lia|].
  unfold te_point, te_on_curve. replace (a * (0 * 0) - 1 + -1 * (1 - d * (0 * 0) * -1)) with (-2) by ring.
  replace (-2 mod p =? 0) with false; [reflexivity|]. symmetry. apply Z.eqb_neq. rewrite <- (Z.mod_unique (-2) p (-1) (p - 2)); lia.
Qed.
Lemma c68_scalar_refuted : forall identity P k, k <> 0 -> te_scalar_multiple identity P k = Raise AttributeError.
Proof. intros identity P k K. unfold te_scalar_multiple. now replace (k =? 0) with false by lia. Qed.
Lemma c69_refuted : forall p a, 1 < p -> exists fuel0, forall fuel, (fuel0 <= fuel)%nat -> mg_init fuel p a = Raise AssertionError.
Proof.
  intros p a P. exists (Z.to_nat (Z.log2 p + 1)). intros fuel F. unfold mg_init. destruct (coord_fuel p fuel ltac:(lia) F) as (t & ->). cbn [bind].
  unfold mg_identity, mg_point, mg_on_curve. replace (-1 * -1) with 1 by ring. replace (0 * (0 * 0) + a * (0 * 0) + 0) with 0 by ring.
  rewrite Z.mod_1_l, Z.mod_0_l by lia. reflexivity.
Qed.
Lemma c69_methods_refuted : forall P k x, mg_negate P = Raise NameError /\ montgomery_ladder2 k x = Raise NameError.
Proof. auto. Qed.
(** P + (-P) is P *)
Lemma c69_opposite_refuted : forall fuel p a x y, x <> 0 -> y <> 0 -> mg_add fuel p a (0, -1) (x, y) (x, - y) = Ok (x, y).
Proof.
  intros fuel p a x y X Y. unfold mg_add, pair_eqb. cbn [fst snd]. replace (x =? 0) with false by lia. cbn [andb]. rewrite Z.eqb_refl. replace (y =? - y) with false by lia.
  replace (y + - y =? 0) with true by lia. reflexivity.
Qed.
Lemma c70_cswap : forall x y, cswap x y 0 = (x, y) /\ cswap x y 1 = (y, x).
Proof. intros x y. split; [exact (cswap_bit x y false)|exact (cswap_bit x y true)]. Qed.
Lemma c70_ladder : forall p a B x y k, prime p -> 3 < p -> (a * a - 4) mod p <> 0 -> B mod p <> 0 -> on_mg p a B (Some (x mod p, y)) ->
  exists R, mg_multiple p a B (Some (x mod p, y)) (Z.to_nat (k mod 2 ^ 255)) R /\ on_mg p a B R /\
    (forall R', mg_multiple p a B (Some (x mod p, y)) (Z.to_nat (k mod 2 ^ 255)) R' -> R' = R) /\ montgomery_ladder p a k x = x_coord R.
Proof.
  intros p a B x y k Hp p3 NA NB OP. destruct (mg_multiple_ex p Hp p3 a B NB _ (Z.to_nat (k mod 2 ^ 255)) OP) as (R & S). exists R.
  destruct (mg_multiple_hm p Hp p3 a B NB _ _ _ OP S) as (OR & E). split; [exact S|]. split; [exact OR|]. split.
  - intros R' S'. destruct (mg_multiple_hm p Hp p3 a B NB _ _ _ OP S') as (OR' & E'). apply (hm_inj p Hp p3 a B NB); congruence.
  - exact (ladder_ok p Hp p3 a B NB NA x y k R OP S).
Qed.
(** every x is the coordinate of a point of the curve or of its twist *)
Lemma c70_every_x : forall p a x, prime p -> exists B y, B mod p <> 0 /\ on_mg p a B (Some (x mod p, y)).
Proof.
  intros p a x Hp. assert (P2 := prime_ge_2 p Hp). set (u := x mod p). assert (U : 0 <= u < p) by (apply Z.mod_pos_bound; lia). set (v := u * u * u + a * u * u + u).
  destruct (Z.eq_dec (v mod p) 0) as [E|N].
  - exists 1, 0. split; [rewrite Z.mod_1_l; lia|]. split; [exact U|]. split; [lia|]. fold v. replace (1 * 0 * 0 - v) with (- v) by ring. now apply Z.mod_opp_l_z; [lia|].
  - exists v, 1. split; [exact N|]. split; [exact U|]. split; [lia|]. fold v. replace (v * 1 * 1 - v) with 0 by ring. apply Z.mod_0_l. lia.
Qed.
(** nothing is reduced before the end *)
Lemma c70_unreduced : forall a x k n, 0 <= k < 2 ^ 200 -> (n <= 55)%nat ->
  exists z3, fold_left (ladder_step a x k) (firstn n (rev (map Z.of_nat (seq 0 255)))) (1, 0, x, 1) = (1, 0, x ^ 2 ^ Z.of_nat n, z3).
Proof.
  intros a x k n K. induction n as [|n IH]; intros N.
  - exists 1. cbn [firstn fold_left]. change (2 ^ Z.of_nat 0) with 1. now rewrite Z.pow_1_r.
  - destruct IH as (z3 & E); [lia|].
    assert (S : firstn (S n) (rev (map Z.of_nat (seq 0 255))) = firstn n (rev (map Z.of_nat (seq 0 255))) ++ [Z.of_nat (254 - n)]).
    { assert (T : forall L : list Z, (n < length L)%nat -> firstn (S n) L = firstn n L ++ [nth n L 0]).
      { clear. induction n as [|n IH]; intros [|z L] H; cbn in *; try lia; [reflexivity|]. f_equal. apply IH. lia. }
      rewrite T by (rewrite rev_length, map_length, seq_length; lia). f_equal. f_equal. rewrite rev_nth by (rewrite map_length, seq_length; lia). rewrite map_length, seq_length.
      change 0 with (Z.of_nat 0) at 1. rewrite map_nth, seq_nth by lia. f_equal; lia. }
    rewrite S, fold_left_app, E. cbn [fold_left]. rewrite step_eq by lia.
    replace (Z.testbit k (Z.of_nat (254 - n))) with false.
    2:{ symmetry. destruct (Z.eq_dec k 0) as [->|N0]; [apply Z.bits_0|]. apply Z.bits_above_log2; [lia|]. apply Z.log2_lt_pow2; [lia|]. apply Z.lt_le_trans with (2 ^ 200); [lia|]. apply Z.pow_le_mono_r; lia. }
    cbn [core]. eexists. f_equal. f_equal.
    rewrite Nat2Z.inj_succ, Z.pow_succ_r by lia. replace ((1 * x ^ 2 ^ Z.of_nat n - 0 * z3) ^ 2) with ((x ^ 2 ^ Z.of_nat n) ^ 2) by ring.
      rewrite <- Z.pow_mul_r by (try apply Z.pow_nonneg; lia). f_equal. ring.
Qed.

(** p^i <> 1 modulo a prime q for i = 1 .. k, by one unit witness for the product of p^i - 1. *)
From Coq Require Import ZArith List Znumtheory Setoid Lia Bool.
From Verif Require Import Proofs.Cong Proofs.NTBasic Proofs.Limbs Proofs.ModRep.
Local Open Scope Z_scope.

Fixpoint degrees (M : modulus) (n : nat) (P x acc : lm) : lm :=
  match n with O => acc | S n => let y := mul M x P in degrees M n P y (mul M acc (sub M y (m_one M))) end.
Definition degree_check (n k : nat) (q r2 p w : Z) : bool :=
  let M := make' k q r2 in
  modulus_ok k q r2 && (0 <=? p) && (Z.log2 p <? 30 * Z.of_nat k) &&
  eqm M (mul M (degrees M n (conv M k p) (m_one M) (m_one M)) (conv M k w)) (m_one M).

Section D.
Context (k : nat) (q r2 : Z) (OK : modulus_ok (S k) q r2 = true) (Hq : prime q).
Let M := make' (S k) q r2.
Let Dq : (q | q) := Z.divide_refl q.
Local Notation rep := (rep k q q).
Lemma degrees_ok p P : rep 3 P p -> forall n e x acc a, 0 <= e -> rep 3 x (p ^ e) -> rep 3 acc a ->
  exists r, rep 3 (degrees M n P x acc) r /\ (cong q a 0 -> cong q r 0) /\ forall i, e < i <= e + Z.of_nat n -> cong q (p ^ i) 1 -> cong q r 0.
Proof.
  intros HP. pose proof (rep_one k q r2 OK q Hq Dq) as One. fold M in One.
  induction n as [|n IH]; intros e x acc a E X A; cbn [degrees].
  - exists a. split; [exact A|]. split; [auto|]. intros i I. lia.
  - pose proof (rep_mul k q r2 OK q Hq Dq _ _ _ _ _ _ X HP ltac:(lia) ltac:(lia) ltac:(lia)) as Y. fold M in Y.
    pose proof (rep_sub k q r2 OK q Hq Dq _ _ _ _ _ _ Y One ltac:(lia) ltac:(lia)) as S1. fold M in S1.
    pose proof (rep_mul k q r2 OK q Hq Dq _ _ _ _ _ _ A S1 ltac:(lia) ltac:(lia) ltac:(lia)) as A'. fold M in A'.
    assert (PE : p ^ (e + 1) = p ^ e * p) by (rewrite Z.pow_add_r, Z.pow_1_r by lia; reflexivity).
    destruct (IH (e + 1) (mul M x P) (mul M acc (sub M (mul M x P) (m_one M))) (a * (p ^ e * p - 1)) ltac:(lia)) as (r & R1 & R2 & R3).
    { rewrite PE. apply (rep_le k q r2 OK q 2 3); [exact Y|lia]. }
    { apply (rep_le k q r2 OK q 2 3); [exact A'|lia]. }
    exists r. split; [exact R1|]. split.
    + intros Z0. apply R2. rewrite Z0. apply cong_refl_eq. ring.
    + intros i I C. destruct (Z.eq_dec i (e + 1)) as [->|N]; [|apply (R3 i); [lia|exact C]]. apply R2. rewrite PE in C. rewrite C. apply cong_refl_eq. ring.
Qed.
End D.
Lemma degree_check_ok n k q r2 p w : prime q -> degree_check n k q r2 p w = true -> forall i, 1 <= i <= Z.of_nat n -> p ^ i mod q <> 1.
Proof.
  intros Hq H i I C. unfold degree_check in H. destruct k as [|k]; [exfalso; unfold modulus_ok in H; cbv zeta in H; rewrite !andb_true_iff in H; intuition discriminate|].
  rewrite !andb_true_iff in H. destruct H as (((OK & H1) & H2) & H3). apply Z.leb_le in H1. apply Z.ltb_lt in H2.
  assert (PR : 0 <= p < B ^ Z.of_nat (S k)).
  { split; [exact H1|]. destruct (Z.eq_dec p 0) as [->|N]; [apply Bk_pos|]. pose proof (Z.log2_spec p ltac:(lia)) as [_ L].
    eapply Z.lt_le_trans; [exact L|]. change B with (2 ^ 30). rewrite <- Z.pow_mul_r by lia. apply Z.pow_le_mono_r; lia. }
  pose proof (rep_conv k q r2 OK q Hq (Z.divide_refl q) p PR) as HP. pose proof (rep_one k q r2 OK q Hq (Z.divide_refl q)) as One.
  destruct (degrees_ok k q r2 OK Hq p _ HP n 0 _ _ 1 ltac:(lia) One One) as (r & R1 & _ & R3).
  apply (unit_witness k q r2 OK q Hq (Z.divide_refl q) _ _ _ _ R1) in H3; try lia. apply H3. assert (q2 := prime_ge_2 q Hq).
  assert (CC : cong q r 0). { apply (R3 i); [lia|]. split. rewrite C. symmetry. apply Z.mod_small. lia. }
  destruct CC as [E]. rewrite E. apply Z.mod_0_l. lia.
Qed.

(** z^4 a = a', z^6 b = b', z^2 x = x', z^3 y = y' modulo p *)
Definition scale_check (k : nat) (p r2 z a b x y a' b' x' y' : Z) : bool :=
  let M := make' k p r2 in let c := conv M k in
  let z1 := c z in let z2 := mul M z1 z1 in let z3 := mul M z2 z1 in
  modulus_ok k p r2 && forallb (fun u => (0 <=? u) && (Z.log2 u <? 30 * Z.of_nat k)) (cons z (cons a (cons b (cons x (cons y (cons a' (cons b' (cons x' (cons y' nil))))))))) &&
  eqm M (mul M (mul M z2 z2) (c a)) (c a') && eqm M (mul M (mul M z3 z3) (c b)) (c b') && eqm M (mul M z2 (c x)) (c x') && eqm M (mul M z3 (c y)) (c y').
Lemma scale_check_ok k p r2 z a b x y a' b' x' y' : prime p -> scale_check k p r2 z a b x y a' b' x' y' = true ->
  cong p (z ^ 4 * a) a' /\ cong p (z ^ 6 * b) b' /\ cong p (z ^ 2 * x) x' /\ cong p (z ^ 3 * y) y'.
Proof.
  intros Hp H. unfold scale_check in H. destruct k as [|k]; [exfalso; unfold modulus_ok in H; cbv zeta in H; rewrite !andb_true_iff in H; intuition discriminate|].
  cbv zeta in H. rewrite !andb_true_iff in H. destruct H as (((((OK & F) & H1) & H2) & H3) & H4). cbn [forallb] in F. rewrite !andb_true_iff in F.
  destruct F as (F1 & F2 & F3 & F4 & F5 & F6 & F7 & F8 & F9 & _).
  assert (RC : forall u, (0 <=? u) = true /\ (Z.log2 u <? 30 * Z.of_nat (S k)) = true -> rep k p p 3 (conv (make' (S k) p r2) (S k) u) u).
  { intros u (U1 & U2). apply Z.leb_le in U1. apply Z.ltb_lt in U2. apply (rep_conv k p r2 OK p Hp (Z.divide_refl p)). split; [exact U1|].
    destruct (Z.eq_dec u 0) as [->|N]; [apply Bk_pos|]. pose proof (Z.log2_spec u ltac:(lia)) as [_ L].
    eapply Z.lt_le_trans; [exact L|]. change B with (2 ^ 30). rewrite <- Z.pow_mul_r by lia. apply Z.pow_le_mono_r; lia. }
  apply RC in F1, F2, F3, F4, F5, F6, F7, F8, F9. clear RC. set (M := make' (S k) p r2) in *.
  assert (RM : forall x y u v, rep k p p 3 x u -> rep k p p 3 y v -> rep k p p 3 (mul M x y) (u * v)).
  { intros x0 y0 u v U V. apply (rep_le k p r2 OK p 2 3); [|lia]. exact (rep_mul k p r2 OK p Hp (Z.divide_refl p) _ _ _ _ _ _ U V ltac:(lia) ltac:(lia) ltac:(lia)). }
  assert (Z2 := RM _ _ _ _ F1 F1). assert (Z3 := RM _ _ _ _ Z2 F1). assert (Z4 := RM _ _ _ _ Z2 Z2). assert (Z6 := RM _ _ _ _ Z3 Z3).
  assert (EQ : forall x y u v, rep k p p 3 x u -> rep k p p 3 y v -> eqm M x y = true -> cong p u v).
  { intros x0 y0 u v U V. exact (rep_eqm k p r2 OK p Hp (Z.divide_refl p) _ _ _ _ _ _ U V ltac:(lia) ltac:(lia)). }
  apply (EQ _ _ _ _ (RM _ _ _ _ Z4 F2) F6) in H1. apply (EQ _ _ _ _ (RM _ _ _ _ Z6 F3) F7) in H2. apply (EQ _ _ _ _ (RM _ _ _ _ Z2 F4) F8) in H3. apply (EQ _ _ _ _ (RM _ _ _ _ Z3 F5) F9) in H4.
  split; [|split; [|split]]; [rewrite <- H1|rewrite <- H2|rewrite <- H3|rewrite <- H4]; apply cong_refl_eq; ring.
Qed.

(** The arctangent series as nested affine maps, two terms at a time. *)
From Coq Require Import ZArith List Uint63 Reals Lia Lra Machin Ratan AltSeries SeqProp Rfunctions PartSum.
From Verif Require Import Proofs.PiLimbs.
Import ListNotations.
Local Open Scope R_scope.

(** 1/a - 1/((a + 2) x^2) + v / x^4, with [x2] = x^2 and [x4] = x^4 *)
Definition pair_coef (x2 x4 a : int) : coef :=
  (let b := a + 2 in let q2 := 2 * (a * b) in (x2 * (b * x2 - a), q2, q2 * x4))%uint63.
Fixpoint gen (x2 x4 : int) (s : nat) (a : int) : list coef :=
  match s with O => [] | S s => pair_coef x2 x4 a :: gen x2 x4 s (a - 4)%uint63 end.
Fixpoint gen_blocks (x2 x4 : int) (s : nat) (s4 : int) (n : nat) (a : int) : list (list coef) :=
  match n with O => [] | S n => gen x2 x4 s a :: gen_blocks x2 x4 s s4 n (a - s4)%uint63 end.

Section X.
Variables (x : Z) (x2 x4 : int) (J : Z).
Hypothesis x5 : (5 <= x)%Z.
Hypothesis E2 : to_Z x2 = (x ^ 2)%Z.
Hypothesis E4 : to_Z x4 = (x ^ 4)%Z.
Hypothesis HJ : (2 * (4 * J) ^ 2 * x ^ 4 < wB)%Z.
Let y : R := / IZR x.

Lemma pair_ok j a : (1 <= j <= J)%Z -> to_Z a = (4 * j - 3)%Z ->
  good (x ^ 4) (pair_coef x2 x4 a) /\ alpha (pair_coef x2 x4 a) = / IZR (4 * j - 3) - y ^ 2 / IZR (4 * j - 1).
Proof.
  intros Hj Ha. unfold pair_coef, good, alpha.
  assert (X2 : (25 <= x ^ 2)%Z) by nia. assert (X4 : (x ^ 4 = x ^ 2 * x ^ 2)%Z) by ring.
  set (X := (x ^ 2)%Z) in *. rewrite X4 in HJ, E4 |- *.
  assert (JJ : (16 * j * j * (X * X) < 2 ^ 62)%Z).
  { assert (16 * j * j <= 16 * J * J)%Z by nia. change wB with (2 * 2 ^ 62)%Z in HJ. clear - HJ H X2. nia. }
  assert (W : (wB = 2 * 2 ^ 62)%Z) by reflexivity.
  assert (T1 : (4 * j * (X * X) <= 16 * j * j * (X * X))%Z) by (apply Z.mul_le_mono_nonneg_r; nia).
  assert (T2 : (4 * j * X <= 4 * j * (X * X))%Z) by (apply Z.mul_le_mono_nonneg_l; nia).
  assert (b1 : to_Z (a + 2) = (4 * j - 1)%Z).
  { rewrite add_spec, Ha. change (to_Z 2) with 2%Z. rewrite Z.mod_small; [ring|]. clear - JJ X2 Hj W. nia. }
  assert (q1 : to_Z (a * (a + 2)) = ((4 * j - 3) * (4 * j - 1))%Z).
  { rewrite mul_spec, Ha, b1. apply Z.mod_small. clear - JJ X2 Hj W. nia. }
  assert (q2 : to_Z (2 * (a * (a + 2))) = (2 * ((4 * j - 3) * (4 * j - 1)))%Z).
  { rewrite mul_spec, q1. change (to_Z 2) with 2%Z. apply Z.mod_small. clear - JJ X2 Hj W. nia. }
  assert (r2 : to_Z (2 * (a * (a + 2)) * x4) = (2 * ((4 * j - 3) * (4 * j - 1) * (X * X)))%Z).
  { rewrite mul_spec, q2, E4, Z.mod_small; [ring|]. clear - JJ X2 Hj W. assert ((4 * j - 3) * (4 * j - 1) <= 16 * j * j)%Z by nia. nia. }
  assert (m1 : to_Z ((a + 2) * x2) = ((4 * j - 1) * X)%Z).
  { rewrite mul_spec, b1, E2. apply Z.mod_small. clear - JJ T1 T2 X2 Hj W. rewrite W. generalize dependent (2 ^ 62)%Z. intros; split; nia. }
  assert (m2 : to_Z ((a + 2) * x2 - a) = ((4 * j - 1) * X - (4 * j - 3))%Z).
  { rewrite sub_spec, m1, Ha. apply Z.mod_small. clear - JJ T1 T2 X2 Hj W. rewrite W. generalize dependent (2 ^ 62)%Z. intros; split; nia. }
  assert (m3 : to_Z (x2 * ((a + 2) * x2 - a)) = (X * ((4 * j - 1) * X - (4 * j - 3)))%Z).
  { rewrite mul_spec, m2, E2. apply Z.mod_small. clear - JJ T1 T2 X2 Hj W. rewrite W. generalize dependent (2 ^ 62)%Z. intros; split; nia. }
  cbv zeta. rewrite q2, r2, m3. split.
  - exists ((4 * j - 3) * (4 * j - 1))%Z. split; [nia|]. split; [reflexivity|]. split; [reflexivity|].
    clear - X2 Hj. split; [nia|]. assert ((4 * j - 1) * X - (4 * j - 3) < (4 * j - 3) * (4 * j - 1) * X)%Z; [|generalize dependent ((4 * j - 1) * X - (4 * j - 3))%Z; intros; nia].
    assert (1 <= 4 * j - 3)%Z by lia. assert (T0 : (0 <= (4 * j - 1) * X)%Z) by (apply Z.mul_nonneg_nonneg; lia). rewrite <- Z.mul_assoc. generalize dependent ((4 * j - 1) * X)%Z. intros; nia.
  - unfold y. assert (XR : IZR x <> 0) by (apply not_0_IZR; clear - x5; lia). assert (A : IZR (4 * j - 3) <> 0) by (apply not_0_IZR; clear - Hj; lia). assert (A' : IZR (4 * j - 1) <> 0) by (apply not_0_IZR; clear - Hj; lia).
    assert (EX : IZR X = IZR x ^ 2) by (unfold X; symmetry; apply (pow_IZR x 2)). clear - XR A A' EX.
    generalize dependent (4 * j - 3)%Z. generalize dependent (4 * j - 1)%Z. intros b A' a A.
    rewrite !mult_IZR, minus_IZR, !mult_IZR, EX. field. auto.
Qed.

(** j pairs of terms of the series of x atan (1/x) *)
Fixpoint fsum (j : nat) : R :=
  match j with O => 0 | S j => fsum j + y ^ (4 * j) * (/ INR (4 * j + 1) - y ^ 2 / INR (4 * j + 3)) end.
Definition G (j : nat) (v : R) : R := fsum j + y ^ (4 * j) * v.
Lemma gen_ok s : forall j a, (s <= j)%nat -> (Z.of_nat j <= J)%Z -> to_Z a = ((4 * Z.of_nat j - 3) mod wB)%Z ->
  length (gen x2 x4 s a) = s /\ Forall (good (x ^ 4)) (gen x2 x4 s a) /\ forall v, G (j - s) (affs (x ^ 4) (gen x2 x4 s a) v) = G j v.
Proof.
  induction s as [|s IH]; intros j a Hs Hj Ha.
  - cbn. split; [reflexivity|]. split; [constructor|]. intros v. now rewrite Nat.sub_0_r.
  - destruct j as [|j]; [lia|]. assert (Ha' : to_Z a = (4 * Z.of_nat (S j) - 3)%Z).
    { rewrite Ha. apply Z.mod_small. split; [lia|]. assert (1 <= J)%Z by lia. assert (1 <= x ^ 4)%Z by (clear - x5; nia). clear - H H0 HJ Hj. nia. }
    destruct (pair_ok (Z.of_nat (S j)) a ltac:(lia) Ha') as [G1 A1].
    destruct (IH j (a - 4)%uint63 ltac:(lia) ltac:(lia)) as (L & F & E).
    { rewrite sub_spec, Ha'. change (to_Z 4) with 4%Z. f_equal. lia. }
    cbn [gen length]. split; [now f_equal|]. split; [now constructor|]. intros v. unfold affs. cbn [fold_left]. fold (affs (x ^ 4) (gen x2 x4 s (a - 4)%uint63)).
    replace (S j - S s)%nat with (j - s)%nat by lia. change (G (j - s) (affs (x ^ 4) (gen x2 x4 s (a - 4)%uint63) (aff (x ^ 4) (pair_coef x2 x4 a) v)) = G (S j) v). rewrite E.
    unfold G, aff. rewrite A1. cbn [fsum]. replace (4 * S j)%nat with (4 * j + 4)%nat by lia. rewrite pow_add.
    rewrite !INR_IZR_INZ. replace (Z.of_nat (4 * j + 1)) with (4 * Z.of_nat (S j) - 3)%Z by lia. replace (Z.of_nat (4 * j + 3)) with (4 * Z.of_nat (S j) - 1)%Z by lia.
    replace (v / IZR (x ^ 4)) with (y ^ 4 * v); [ring|]. unfold y. change (x ^ 4)%Z with (x ^ Z.of_nat 4)%Z. rewrite <- pow_IZR. field. apply not_0_IZR. lia.
Qed.
Lemma gen_blocks_ok s s4 n : to_Z s4 = (4 * Z.of_nat s)%Z -> forall j a, (n * s <= j)%nat -> (Z.of_nat j <= J)%Z -> to_Z a = ((4 * Z.of_nat j - 3) mod wB)%Z ->
  length (gen_blocks x2 x4 s s4 n a) = n /\ Forall (fun cs => length cs = s /\ Forall (good (x ^ 4)) cs) (gen_blocks x2 x4 s s4 n a) /\
  forall v, G (j - n * s) (affs (x ^ 4) (concat (gen_blocks x2 x4 s s4 n a)) v) = G j v.
Proof.
  intros E. induction n as [|n IH]; intros j a Hs Hj Ha.
  - cbn. split; [reflexivity|]. split; [constructor|]. intros v. now rewrite Nat.sub_0_r.
  - destruct (gen_ok s j a ltac:(nia) Hj Ha) as (L1 & F1 & E1). destruct (IH (j - s)%nat (a - s4)%uint63 ltac:(nia) ltac:(lia)) as (L2 & F2 & E3).
    { rewrite sub_spec, Ha, E. rewrite Zminus_mod_idemp_l. f_equal. nia. }
    cbn [gen_blocks length concat]. split; [now f_equal|]. split; [constructor; auto|]. intros v.
    unfold affs. rewrite fold_left_app. fold (affs (x ^ 4) (gen x2 x4 s a)). fold (affs (x ^ 4) (gen x2 x4 s a) v). 
    replace (j - S n * s)%nat with (j - s - n * s)%nat by (cbn; lia). change (G (j - s - n * s) (affs (x ^ 4) (concat (gen_blocks x2 x4 s s4 n (a - s4)%uint63)) (affs (x ^ 4) (gen x2 x4 s a) v)) = G j v).
    rewrite E3. apply E1.
Qed.

Lemma y01 : 0 < y < 1.
Proof.
  unfold y. assert (5 <= IZR x) by (apply IZR_le; exact x5). split; [apply Rinv_0_lt_compat; lra|]. rewrite <- Rinv_1. apply Rinv_lt_contravar; lra.
Qed.
Lemma fsum_even N : y * (fsum N + y ^ (4 * N) / INR (4 * N + 1)) = sum_f_R0 (tg_alt (Ratan_seq y)) (2 * N) /\
  y * fsum (S N) = sum_f_R0 (tg_alt (Ratan_seq y)) (S (2 * N)).
Proof.
  assert (SGN : forall n, (-1) ^ (2 * n) = 1) by (intros n; rewrite pow_mult; replace ((-1) ^ 2) with 1 by ring; apply pow1).
  assert (P : forall a, INR (a + 1) <> 0) by (intros a; apply not_0_INR; lia). assert (P' : forall a, INR (a + 3) <> 0) by (intros a; apply not_0_INR; lia).
  induction N as [|N [IH1 IH2]].
  - cbn [Nat.mul sum_f_R0 fsum Nat.add]. unfold tg_alt, Ratan_seq. cbn [Nat.mul Nat.add pow]. change (INR 1) with 1. split; [field|]. field. apply not_0_INR. discriminate.
  - assert (H : y * (fsum (S N) + y ^ (4 * S N) / INR (4 * S N + 1)) = sum_f_R0 (tg_alt (Ratan_seq y)) (2 * S N)).
    { rewrite Rmult_plus_distr_l, IH2. replace (2 * S N)%nat with (S (S (2 * N))) by lia. rewrite (tech5 _ (S (2 * N))). f_equal.
      unfold tg_alt, Ratan_seq. replace (S (S (2 * N))) with (2 * S N)%nat by lia. rewrite SGN. replace (2 * (2 * S N))%nat with (4 * S N)%nat by lia. rewrite (pow_add y (4 * S N) 1). field. apply P. }
    split; [exact H|]. rewrite tech5, <- H. cbn [fsum]. set (u := fsum N + y ^ (4 * N) * (/ INR (4 * N + 1) - y ^ 2 / INR (4 * N + 3))).
    unfold tg_alt, Ratan_seq. replace (S (2 * S N)) with (2 * S N + 1)%nat by lia. rewrite (pow_add (-1)), SGN. replace (2 * (2 * S N + 1) + 1)%nat with (4 * S N + 3)%nat by lia.
    rewrite (pow_add y (4 * S N) 3). field. split; [apply P'|apply P].
Qed.
Lemma atan_bounds N : (1 <= N)%nat -> y * G N 0 <= atan y <= y * G N (/ INR (4 * N + 1)).
Proof.
  intros HN. pose proof y01 as Y. unfold G. rewrite Rmult_0_r, Rplus_0_r.
  assert (D : 0 <= y <= 1) by lra.
  assert (HA : forall M, sum_f_R0 (tg_alt (Ratan_seq y)) (S (2 * M)) <= atan y <= sum_f_R0 (tg_alt (Ratan_seq y)) (2 * M)).
  { intros M. apply alternated_series_ineq; [apply Ratan_seq_decreasing; exact D|apply Ratan_seq_converging; exact D|].
    rewrite atan_eq_ps_atan by exact Y. unfold ps_atan. destruct (in_int y) as [I|I]; [|exfalso; apply I; lra]. destruct (ps_atan_exists_1 y I) as [v Pv]. exact Pv. }
  destruct N as [|N]; [lia|]. split.
  - rewrite (proj2 (fsum_even N)). apply HA.
  - pose proof (proj1 (fsum_even (S N))) as E. unfold Rdiv in E. rewrite E. apply HA.
Qed.

Definition atan_limbs (m s : nat) (s4 : int) (n : nat) (a : int) : limbs := blocks m (gen_blocks x2 x4 s s4 n a) Nil.
Lemma atan_limbs_ok m s s4 n a : (1 <= n * s)%nat -> (Z.of_nat (n * s) <= J)%Z -> to_Z s4 = (4 * Z.of_nat s)%Z -> to_Z a = ((4 * Z.of_nat (n * s) - 3) mod wB)%Z ->
  (20 * B ^ Z.of_nat m <= 9 * (x ^ 4) ^ Z.of_nat s)%Z ->
  size (atan_limbs m s s4 n a) = (n * m)%nat /\
  IZR (num (atan_limbs m s s4 n a)) <= IZR x * atan (/ IZR x) * IZR B ^ (n * m) <= IZR (num (atan_limbs m s s4 n a)) + 2.
Proof.
  intros Hn HnJ Hs4 Ha C. destruct (gen_blocks_ok s s4 n Hs4 (n * s)%nat a (le_n _) HnJ Ha) as (L & F & E). rewrite Nat.sub_diag in E.
  assert (X11 : (11 <= x ^ 4)%Z) by nia.
  assert (N0 : forall v, 0 <= v <= 1 -> near 2 Nil v) by (intros v Hv; unfold near; cbn; lra).
  assert (I : 0 <= / INR (4 * (n * s) + 1) <= 1).
  { assert (1 <= INR (4 * (n * s) + 1)) by (change 1 with (INR 1); apply le_INR; lia). split; [left; apply Rinv_0_lt_compat; lra|]. rewrite <- Rinv_1. apply Rinv_le_contravar; lra. }
  destruct (blocks_near _ m s X11 C _ F Nil 0 (N0 0 ltac:(lra))) as [N1 S1]. destruct (blocks_near _ m s X11 C _ F Nil _ (N0 _ I)) as [N2 _].
  rewrite L in S1. cbn [size Nat.add] in S1. split; [exact S1|].
  assert (EG : forall v, affs (x ^ 4) (concat (gen_blocks x2 x4 s s4 n a)) v = G (n * s) v) by (intros v; rewrite <- E; unfold G; cbn; ring).
  rewrite EG in N1, N2. unfold near in N1, N2. rewrite S1 in N1, N2. fold (atan_limbs m s s4 n a) in N1, N2.
  destruct (atan_bounds (n * s) Hn) as [A1 A2]. fold y.
  assert (XR : 0 < IZR x) by (apply IZR_lt; lia). assert (XY : IZR x * y = 1) by (unfold y; field; lra).
  assert (BP : 0 <= IZR B ^ (n * m)) by (apply pow_le, IZR_le; discriminate).
  assert (A1' : G (n * s) 0 <= IZR x * atan y) by (apply (Rmult_le_compat_l (IZR x)) in A1; [|lra]; rewrite <- Rmult_assoc, XY, Rmult_1_l in A1; exact A1).
  assert (A2' : IZR x * atan y <= G (n * s) (/ INR (4 * (n * s) + 1))) by (apply (Rmult_le_compat_l (IZR x)) in A2; [|lra]; rewrite <- Rmult_assoc, XY, Rmult_1_l in A2; exact A2).
  apply (Rmult_le_compat_r _ _ _ BP) in A1', A2'. lra.
Qed.
End X.

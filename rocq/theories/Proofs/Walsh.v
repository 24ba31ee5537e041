(** Walsh transform of boolean functions. *)
From Verif Require Import Proofs.Tac Model.Analysis Spec.AnalysisSpec.
Local Open Scope Z_scope.

(** ** sums *)
Definition lsum (l : list Z) : Z := fold_right Z.add 0 l.

Lemma lsum_app a b : lsum (a ++ b) = lsum a + lsum b.
Proof. unfold lsum; induction a; cbn [app fold_right]; lia. Qed.

Lemma sum_S N f : sum_below (S N) f = sum_below N f + f (Z.of_nat N).
Proof.
  unfold sum_below. rewrite seq_S, map_app. cbn [Nat.add map].
  fold (lsum (map (fun k => f (Z.of_nat k)) (seq 0 N) ++ [f (Z.of_nat N)])).
  rewrite lsum_app. unfold lsum. cbn [fold_right]. lia.
Qed.

Lemma sum_0 f : sum_below 0 f = 0.
Proof. reflexivity. Qed.

Lemma sum_ext N f g : (forall x, 0 <= x < Z.of_nat N -> f x = g x) -> sum_below N f = sum_below N g.
Proof.
  intros H. induction N; [reflexivity|]. rewrite !sum_S, IHN; [|intros; apply H; lia].
  rewrite H by lia. reflexivity.
Qed.

Lemma sum_plus N f g : sum_below N (fun x => f x + g x) = sum_below N f + sum_below N g.
Proof. induction N; [reflexivity|]. rewrite !sum_S, IHN. lia. Qed.

Lemma sum_scale N c f : sum_below N (fun x => c * f x) = c * sum_below N f.
Proof. induction N; [rewrite !sum_0; lia|]. rewrite !sum_S, IHN. lia. Qed.

Lemma sum_const0 N : sum_below N (fun _ => 0) = 0.
Proof. induction N; [reflexivity|]. rewrite !sum_S, IHN. lia. Qed.

Lemma sum_swap N M f :
  sum_below N (fun x => sum_below M (fun y => f x y)) = sum_below M (fun y => sum_below N (fun x => f x y)).
Proof.
  induction N.
  - rewrite sum_0. symmetry. erewrite sum_ext; [apply sum_const0|]. reflexivity.
  - rewrite sum_S, IHN, <- sum_plus. apply sum_ext. intros. now rewrite sum_S.
Qed.

Lemma sum_double N f : sum_below (2 * N) f = sum_below N (fun x => f (2 * x) + f (2 * x + 1)).
Proof.
  induction N; [reflexivity|].
  replace (2 * S N)%nat with (S (S (2 * N))) by lia. rewrite !sum_S, IHN.
  rewrite <- Z.add_assoc. f_equal. f_equal; f_equal; lia.
Qed.

Lemma sum_le N f g : (forall x, 0 <= x < Z.of_nat N -> f x <= g x) -> sum_below N f <= sum_below N g.
Proof.
  intros H. induction N; [reflexivity|]. rewrite !sum_S.
  specialize (IHN ltac:(intros; apply H; lia)). specialize (H (Z.of_nat N) ltac:(lia)). lia.
Qed.

Lemma count_S N p : count_below (S N) p = count_below N p + Z.b2z (p (Z.of_nat N)).
Proof.
  unfold count_below. rewrite seq_S, filter_app, app_length. cbn [Nat.add filter].
  destruct (p (Z.of_nat N)); cbn [length Z.b2z]; lia.
Qed.

Lemma count_sum N p : count_below N p = sum_below N (fun x => Z.b2z (p x)).
Proof. induction N; [reflexivity|]. now rewrite count_S, sum_S, IHN. Qed.

(** ** the inner product *)
Lemma dot_low n a b (c d : bool) :
  dot (S n) (2 * a + Z.b2z c) (2 * b + Z.b2z d) = xorb (dot n a b) (c && d).
Proof.
  induction n as [|n IH].
  - cbn [dot]. change (Z.of_nat 0) with 0. rewrite !Z.testbit_0_r. reflexivity.
  - change (dot (S (S n)) (2 * a + Z.b2z c) (2 * b + Z.b2z d)) with
      (xorb (dot (S n) (2 * a + Z.b2z c) (2 * b + Z.b2z d))
         (Z.testbit (2 * a + Z.b2z c) (Z.of_nat (S n)) && Z.testbit (2 * b + Z.b2z d) (Z.of_nat (S n)))).
    rewrite IH. rewrite Nat2Z.inj_succ, !Z.testbit_succ_r by lia. cbn [dot].
    destruct (dot n a b), (c && d), (Z.testbit a (Z.of_nat n) && Z.testbit b (Z.of_nat n)); reflexivity.
Qed.

Lemma split_bit x : x = 2 * (x / 2) + Z.b2z (Z.odd x).
Proof. pose proof (Z.div_mod x 2 ltac:(lia)) as H. rewrite Zmod_odd in H. destruct (Z.odd x); exact H. Qed.

Lemma dot_half n a b : dot (S n) a b = xorb (dot n (a / 2) (b / 2)) (Z.odd a && Z.odd b).
Proof. rewrite (split_bit a) at 1. rewrite (split_bit b) at 1. apply dot_low. Qed.

Lemma dot_lxor_l n a a' b : dot n (Z.lxor a a') b = xorb (dot n a b) (dot n a' b).
Proof.
  induction n; [reflexivity|]. cbn [dot]. rewrite IHn, Z.lxor_spec.
  destruct (dot n a b), (dot n a' b), (Z.testbit a (Z.of_nat n)), (Z.testbit a' (Z.of_nat n)), (Z.testbit b (Z.of_nat n)); reflexivity.
Qed.

Lemma dot_comm n a b : dot n a b = dot n b a.
Proof. induction n; [reflexivity|]. cbn [dot]. now rewrite IHn, andb_comm. Qed.

Lemma dot_lxor_r n a b b' : dot n a (Z.lxor b b') = xorb (dot n a b) (dot n a b').
Proof. rewrite !(dot_comm n a). apply dot_lxor_l. Qed.

Lemma dot_land n a b a' b' : Z.land a b = Z.land a' b' -> dot n a b = dot n a' b'.
Proof.
  intros H. induction n; [reflexivity|]. cbn [dot]. rewrite IHn, <- !Z.land_spec, H. reflexivity.
Qed.

Lemma dot_one n a b : 0 <= b < 2 ^ Z.of_nat n -> dot n a b = dot n (Z.land a b) (-1).
Proof.
  intros _. apply dot_land. now rewrite Z.land_m1_r.
Qed.

(** ** orthogonality *)
Lemma sign_xorb a b : sign (xorb a b) = sign a * sign b.
Proof. destruct a, b; reflexivity. Qed.
Lemma sign_sq a : sign a * sign a = 1.
Proof. destruct a; reflexivity. Qed.

Lemma pow2_nat n : Z.of_nat (2 ^ n) = 2 ^ Z.of_nat n.
Proof. induction n; [reflexivity|]. rewrite Nat2Z.inj_succ, Z.pow_succ_r by lia. cbn [Nat.pow]. lia. Qed.

Lemma orthogonal n : forall x y, 0 <= x < 2 ^ Z.of_nat n -> 0 <= y < 2 ^ Z.of_nat n ->
  sum_below (2 ^ n) (fun w => sign (dot n w x) * sign (dot n w y)) =
  if x =? y then 2 ^ Z.of_nat n else 0.
Proof.
  induction n as [|n IH]; intros x y Hx Hy.
  - change (2 ^ Z.of_nat 0) with 1 in *. assert (x = 0) by lia. assert (y = 0) by lia. subst. reflexivity.
  - rewrite Nat2Z.inj_succ, Z.pow_succ_r in * by lia.
    change (2 ^ S n)%nat with (2 * 2 ^ n)%nat. rewrite sum_double.
    rewrite (sum_ext _ _ (fun w => (1 + sign (Z.odd x) * sign (Z.odd y)) *
        (sign (dot n w (x / 2)) * sign (dot n w (y / 2))))).
    + rewrite sum_scale, IH by lia.
      pose proof (split_bit x) as Ex. pose proof (split_bit y) as Ey.
      destruct (Z.eqb_spec x y) as [->|N].
      * rewrite Z.eqb_refl, sign_sq. lia.
      * destruct (Z.eqb_spec (x / 2) (y / 2)) as [E|E]; [|lia].
        destruct (Z.odd x), (Z.odd y); cbn [Z.b2z sign] in *; lia.
    + intros w _. rewrite !dot_half.
      replace (2 * w / 2) with w by lia. replace ((2 * w + 1) / 2) with w by lia.
      replace (Z.odd (2 * w)) with false by (rewrite Z.odd_mul; reflexivity).
      replace (Z.odd (2 * w + 1)) with true by (rewrite Z.odd_add, Z.odd_mul; reflexivity).
      cbn [andb]. rewrite !sign_xorb. cbn [sign]. ring.
Qed.

(** ** the transform of a table *)
Definition walsh (n : nat) (t : list Z) (w : Z) : Z :=
  sum_below (2 ^ n) (fun x => sign (value t x) * sign (dot n w x)).

Lemma correlation_walsh n t w : correlation n t w = walsh n t w.
Proof.
  unfold correlation, walsh. rewrite !count_sum.
  enough (H : forall N f g, sum_below N f - sum_below N g = sum_below N (fun x => f x - g x)).
  { rewrite H. apply sum_ext. intros x _. destruct (value t x), (dot n w x); reflexivity. }
  intros N f g. induction N; [reflexivity|]. rewrite !sum_S. lia.
Qed.

Lemma inversion n t z : 0 <= z < 2 ^ Z.of_nat n ->
  sum_below (2 ^ n) (fun w => walsh n t w * sign (dot n w z)) = 2 ^ Z.of_nat n * sign (value t z).
Proof.
  intros Hz. unfold walsh.
  rewrite (sum_ext _ _ (fun w => sum_below (2 ^ n)
     (fun x => sign (value t x) * (sign (dot n w x) * sign (dot n w z))))).
  2:{ intros w _. rewrite Z.mul_comm, <- sum_scale. apply sum_ext. intros. ring. }
  rewrite sum_swap.
  rewrite (sum_ext _ _ (fun x => sign (value t x) * (if x =? z then 2 ^ Z.of_nat n else 0))).
  2:{ intros x Hx. rewrite sum_scale. rewrite orthogonal; [reflexivity | now rewrite <- pow2_nat | assumption]. }
  assert (G : forall N, sum_below N (fun x => sign (value t x) * (if x =? z then 2 ^ Z.of_nat n else 0))
      = if z <? Z.of_nat N then 2 ^ Z.of_nat n * sign (value t z) else 0).
  { induction N as [|N IHN].
    - rewrite sum_0. destruct (Z.ltb_spec z (Z.of_nat 0)); [lia|reflexivity].
    - rewrite sum_S, IHN. destruct (Z.eqb_spec (Z.of_nat N) z) as [E|E].
      + rewrite E. rewrite Z.ltb_irrefl. destruct (Z.ltb_spec z (Z.of_nat (S N))); lia.
      + destruct (Z.ltb_spec z (Z.of_nat N)), (Z.ltb_spec z (Z.of_nat (S N))); lia. }
  rewrite G, pow2_nat. destruct (Z.ltb_spec z (2 ^ Z.of_nat n)); [reflexivity|lia].
Qed.

Lemma sum_one N : sum_below N (fun _ => 1) = Z.of_nat N.
Proof. induction N; [reflexivity|]. rewrite sum_S, IHN. lia. Qed.

Lemma parseval n t : sum_below (2 ^ n) (fun w => walsh n t w * walsh n t w) = 4 ^ Z.of_nat n.
Proof.
  rewrite (sum_ext _ _ (fun w => sum_below (2 ^ n)
     (fun x => sign (value t x) * (walsh n t w * sign (dot n w x))))).
  2:{ intros w _. unfold walsh at 1. rewrite Z.mul_comm, <- sum_scale. apply sum_ext. intros. ring. }
  rewrite sum_swap.
  rewrite (sum_ext _ _ (fun _ => 2 ^ Z.of_nat n * 1)).
  2:{ intros x Hx. rewrite sum_scale, inversion by (now rewrite <- pow2_nat).
      rewrite <- (sign_sq (value t x)). ring. }
  rewrite sum_scale, sum_one, pow2_nat, <- Z.pow_mul_l. reflexivity.
Qed.

(** ** distances to affine functions *)
Lemma distance_affine n t c w :
  2 * distance n t (affine n c w) = 2 ^ Z.of_nat n - sign c * walsh n t w.
Proof.
  unfold distance, walsh, affine. rewrite count_sum, <- pow2_nat, <- sum_one.
  rewrite <- !sum_scale.
  enough (H : forall N f g, sum_below N f - sum_below N g = sum_below N (fun x => f x - g x)).
  { rewrite H. apply sum_ext. intros x _. destruct (value t x), (dot n w x), c; reflexivity. }
  intros N f g. induction N; [reflexivity|]. rewrite !sum_S. lia.
Qed.

Lemma distance_min n t m :
  (exists w, 0 <= w < 2 ^ Z.of_nat n /\ Z.abs (walsh n t w) = m) ->
  (forall w, 0 <= w < 2 ^ Z.of_nat n -> Z.abs (walsh n t w) <= m) ->
  exists d, 2 ^ Z.of_nat n - m = 2 * d /\ affine_distance n t d.
Proof.
  intros (w & Hw & E) M.
  set (c := walsh n t w <? 0).
  exists (distance n t (affine n c w)).
  pose proof (distance_affine n t c w) as D.
  assert (Ec : sign c * walsh n t w = m).
  { unfold c. destruct (Z.ltb_spec (walsh n t w) 0); cbn [sign]; lia. }
  split; [lia|]. split; [now exists c, w|].
  intros c' w' Hw'. pose proof (distance_affine n t c' w') as D'.
  specialize (M w' Hw'). destruct c'; cbn [sign] in D'; lia.
Qed.

Lemma affine_distance_unique n t d d' : affine_distance n t d -> affine_distance n t d' -> d = d'.
Proof.
  intros [(c & w & Hw & E) L] [(c' & w' & Hw' & E') L'].
  specialize (L c' w' Hw'). specialize (L' c w Hw). lia.
Qed.

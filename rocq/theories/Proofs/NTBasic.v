From Coq Require Import Znumtheory Zpow_facts.
From Verif Require Import Proofs.Tac Model.NumberTheory Model.GaloisField.
Local Open Scope Z_scope.

(** ** Euclid's algorithm: number of steps *)
Inductive euclid : nat -> Z -> Z -> Prop :=
| eu0 n b : euclid n 0 b
| euS n a b : a <> 0 -> euclid n (b mod a) a -> euclid (S n) a b.

Lemma euclid_mono n a b : euclid n a b -> forall m, (n <= m)%nat -> euclid m a b.
Proof.
  induction 1; intros m Hm; [constructor|]. destruct m as [|m]; [lia|]. constructor; auto. apply IHeuclid. lia.
Qed.

Lemma mod_halves a r : r <> 0 -> a <> 0 -> Z.abs r < Z.abs a -> 0 <= r * a -> 2 * Z.abs (a mod r) < Z.abs a.
Proof.
  intros Hr Ha Hlt Hs.
  assert (G : forall x y, 0 < y < x -> 2 * (x mod y) < x).
  { intros x y H. assert (1 <= x / y) by (apply Z.div_le_lower_bound; lia).
    pose proof (Z.div_mod x y ltac:(lia)). pose proof (Z.mod_pos_bound x y ltac:(lia)). nia. }
  destruct (Z.lt_ge_cases a 0) as [N|N].
  - assert (r < 0) by nia. rewrite <- (Z.opp_involutive (a mod r)), <- Z.mod_opp_opp by lia.
    rewrite Z.abs_opp. rewrite (Z.abs_eq ((- a) mod _)) by (apply Z.mod_pos_bound; lia). rewrite (Z.abs_neq a) by lia. apply G. lia.
  - assert (0 < r) by nia. rewrite (Z.abs_eq (a mod r)) by (apply Z.mod_pos_bound; lia). rewrite (Z.abs_eq a) by lia. apply G. lia.
Qed.
Lemma mod_abs_lt b a : a <> 0 -> Z.abs (b mod a) < Z.abs a /\ 0 <= b mod a * a.
Proof.
  intros H. destruct (Z.lt_ge_cases a 0).
  - pose proof (Z.mod_neg_bound b a ltac:(lia)). split; [lia|nia].
  - pose proof (Z.mod_pos_bound b a ltac:(lia)). split; [lia|nia].
Qed.
Lemma euclid_steps k : forall a b, Z.abs a < 2 ^ Z.of_nat k -> euclid (2 * k) a b.
Proof.
  induction k as [|k IH]; intros a b H.
  - cbn in H. assert (a = 0) by lia. subst. constructor.
  - destruct (Z.eq_dec a 0) as [->|Ha]; [constructor|].
    replace (2 * S k)%nat with (S (S (2 * k))) by lia. constructor; auto.
    destruct (mod_abs_lt b a Ha) as [L S].
    destruct (Z.eq_dec (b mod a) 0) as [->|Hr]; [constructor|]. constructor; auto.
    apply IH. pose proof (mod_halves a (b mod a) Hr Ha L S).
    replace (2 ^ Z.of_nat (Datatypes.S k)) with (2 * 2 ^ Z.of_nat k) in H by (rewrite Nat2Z.inj_succ, Z.pow_succ_r; lia). lia.
Qed.
(** fuel that suffices for arguments of absolute value at most [n] *)
Definition steps (n : Z) : nat := (2 * S (Z.to_nat (Z.log2 (Z.abs n))))%nat.
Lemma log2_lt n : Z.abs n < 2 ^ Z.of_nat (S (Z.to_nat (Z.log2 (Z.abs n)))).
Proof.
  destruct (Z.eq_dec n 0) as [->|H]; [reflexivity|]. pose proof (Z.log2_nonneg (Z.abs n)).
  rewrite Nat2Z.inj_succ, Z2Nat.id by lia. apply Z.log2_spec. lia.
Qed.
Lemma euclid_fuel a b : euclid (steps a) a b.
Proof. apply euclid_steps, log2_lt. Qed.
Lemma steps_le a b : Z.abs a <= Z.abs b -> (steps a <= steps b)%nat.
Proof. intros H. unfold steps. pose proof (Z.log2_le_mono _ _ H). lia. Qed.

(** ** gcd2 *)
Lemma gcd2_euclid n a b : euclid n a b -> forall f, (n <= f)%nat -> exists g, gcd2 f a b = Ok g /\ Z.abs g = Z.gcd a b /\ (0 <= a -> 0 <= b -> 0 <= g).
Proof.
  induction 1 as [n b|n a b Ha E IH]; intros f Hf.
  - exists b. destruct f; cbn; (split; [reflexivity|]); split; auto.
  - destruct f as [|f]; [lia|]. destruct (IH f ltac:(lia)) as (g & Eg & G & P).
    exists g. cbn [gcd2]. apply Z.eqb_neq in Ha as Ha'. rewrite Ha'. split; [exact Eg|]. split.
    + rewrite G. rewrite Z.gcd_mod by auto. reflexivity.
    + intros. apply P; auto. apply Z.mod_pos_bound. lia.
Qed.
Lemma gcd2_abs a b f : (steps a <= f)%nat -> exists g, gcd2 f a b = Ok g /\ Z.abs g = Z.gcd a b /\ (0 <= a -> 0 <= b -> 0 <= g).
Proof. apply gcd2_euclid, euclid_fuel. Qed.
Lemma gcd2_nonneg a b f : 0 <= a -> 0 <= b -> (steps a <= f)%nat -> gcd2 f a b = Ok (Z.gcd a b).
Proof.
  intros Ha Hb Hf. destruct (gcd2_abs a b f Hf) as (g & E & G & P). rewrite E. f_equal. specialize (P Ha Hb). lia.
Qed.
Lemma gcd_two a b f : 0 <= a -> 0 <= b -> (steps a <= f)%nat -> gcd f [a; b] = Ok (Z.gcd a b).
Proof. intros. cbn. now apply gcd2_nonneg. Qed.

Lemma gcd_le x y B : 0 <= x <= B -> 0 <= y <= B -> 0 <= Z.gcd x y <= B.
Proof.
  intros Hx Hy. split; [apply Z.gcd_nonneg|]. destruct (Z.eq_dec x 0) as [->|Nx].
  - rewrite Z.gcd_0_l, Z.abs_eq by lia. lia.
  - enough (Z.gcd x y <= x) by lia. apply Z.divide_pos_le; [lia|apply Z.gcd_divide_l].
Qed.
Lemma gcd_fold f B t : (steps B <= f)%nat -> Forall (fun y => 0 <= y <= B) t -> forall x, 0 <= x <= B ->
  fold_left (fun acc y => do a <- acc; gcd2 f a y) t (Ok x) = Ok (fold_left Z.gcd t x).
Proof.
  intros Hf. induction 1 as [|y t Hy Ht IH]; intros x Hx; cbn [fold_left bind]; [reflexivity|].
  rewrite gcd2_nonneg by (first [lia | eapply Nat.le_trans; [apply steps_le|exact Hf]; lia]).
  apply IH. now apply gcd_le.
Qed.
Lemma fold_gcd_greatest t : forall x d, (d | fold_left Z.gcd t x) <-> (d | x) /\ Forall (fun y => (d | y)) t.
Proof.
  induction t as [|y t IH]; intros x d; cbn [fold_left].
  - split; [intros; split; auto|tauto].
  - rewrite IH, Forall_cons_iff. split.
    + intros [A B]. assert (d | x) by (eapply Z.divide_trans; [exact A|apply Z.gcd_divide_l]).
      assert (d | y) by (eapply Z.divide_trans; [exact A|apply Z.gcd_divide_r]). tauto.
    + intros (A & B & C). split; auto. now apply Z.gcd_greatest.
Qed.
Lemma fold_gcd_nonneg t : forall x, 0 <= x -> 0 <= fold_left Z.gcd t x.
Proof. induction t as [|y t IH]; intros x Hx; cbn [fold_left]; auto. apply IH, Z.gcd_nonneg. Qed.

(** ** lcm *)
Lemma lcm2_spec a b f : 0 <= a -> 0 <= b -> (a <> 0 \/ b <> 0) -> (steps a <= f)%nat -> lcm2 f a b = Ok (Z.lcm a b).
Proof.
  intros Ha Hb N Hf. unfold lcm2. rewrite gcd_two by auto. cbn [bind]. unfold py_div.
  assert (G : Z.gcd a b <> 0) by (intros E; apply Z.gcd_eq_0 in E; lia).
  apply Z.eqb_neq in G as G'. rewrite G'. f_equal. unfold Z.lcm.
  rewrite Z.abs_eq.
  - symmetry. rewrite Z.divide_div_mul_exact; auto. apply Z.gcd_divide_r.
  - apply Z.mul_nonneg_nonneg; auto. apply Z.div_pos; auto. pose proof (Z.gcd_nonneg a b). lia.
Qed.
Definition zero_free_tail (x : Z) (t : list Z) : Prop := x <> 0 /\ Forall (fun y => y <> 0) t.
Lemma lcm_pos_le x y : 0 < x -> 0 < y -> 0 < Z.lcm x y <= x * y.
Proof.
  intros Hx Hy. assert (Z.lcm x y <> 0) by (intros E; apply Z.lcm_eq_0 in E; lia). pose proof (Z.lcm_nonneg x y).
  split; [lia|]. apply Z.divide_pos_le; [nia|]. apply Z.lcm_least; [apply Z.divide_factor_l|apply Z.divide_factor_r].
Qed.
Lemma lcm_fold f t : Forall (fun y => 0 < y) t -> forall x, 0 < x ->
  (steps (x * fold_right Z.mul 1 t)%Z <= f)%nat ->
  fold_left (fun acc y => do a <- acc; lcm2 f a y) t (Ok x) = Ok (fold_left Z.lcm t x).
Proof.
  induction 1 as [|y t Hy Ht IH]; intros x Hx Hf; cbn [fold_left bind fold_right] in *; [reflexivity|].
  assert (P : 0 < fold_right Z.mul 1 t) by (clear - Ht; induction Ht; cbn; lia).
  assert (Q : 0 < y * fold_right Z.mul 1 t) by lia.
  rewrite lcm2_spec; try lia.
  - apply IH; [apply lcm_pos_le; auto|]. eapply Nat.le_trans; [apply steps_le|exact Hf].
    pose proof (lcm_pos_le x y Hx Hy). rewrite !Z.abs_eq by nia. nia.
  - eapply Nat.le_trans; [apply steps_le|exact Hf]. rewrite !Z.abs_eq by nia. nia.
Qed.
Lemma fold_lcm_least t : forall x m, (fold_left Z.lcm t x | m) <-> (x | m) /\ Forall (fun y => (y | m)) t.
Proof.
  induction t as [|y t IH]; intros x m; cbn [fold_left].
  - split; [intros; split; auto|tauto].
  - rewrite IH, Forall_cons_iff. split.
    + intros [A B]. assert (x | m) by (eapply Z.divide_trans; [apply Z.divide_lcm_l|exact A]).
      assert (y | m) by (eapply Z.divide_trans; [apply Z.divide_lcm_r|exact A]). tauto.
    + intros (A & B & C). split; auto. now apply Z.lcm_least.
Qed.

(** ** inverse_mod of numbertheory *)
Lemma inverse_loop_euclid n c d : euclid n c d -> forall f uc vc ud vd a m, (n <= f)%nat -> 0 <= c -> 0 <= d ->
  uc * a + vc * m = c -> ud * a + vd * m = d ->
  exists g u v, inverse_loop f c d uc vc ud vd = Ok (g, u, v) /\ u * a + v * m = g /\ g = Z.gcd c d.
Proof.
  induction 1 as [n b|n c d Hc E IH]; intros f uc vc ud vd a m Hf H0 H0' H1 H2.
  - exists b, ud, vd. rewrite Z.gcd_0_l. destruct f; cbn; (split; [reflexivity|]); split; auto; lia.
  - destruct f as [|f]; [lia|]. apply Z.eqb_neq in Hc as Hc'. cbn [inverse_loop]. rewrite Hc'.
    assert (Hq : d mod c = d - d / c * c) by (rewrite Z.mod_eq by auto; lia).
    destruct (IH f (ud - d / c * uc) (vd - d / c * vc) uc vc a m) as (g & u & v & A & B & C);
      [lia|apply Z.mod_pos_bound; lia|lia| |auto|].
    + rewrite Hq. transitivity (ud * a + vd * m - d / c * (uc * a + vc * m)); [ring|congruence].
    + exists g, u, v. split; [exact A|]. split; [exact B|]. rewrite C. now rewrite Z.gcd_mod.
Qed.

(** bounds on the cofactor: |uc|*d + |ud|*c = m throughout *)
Lemma inverse_loop_bound n c d : euclid n c d -> forall f uc vc ud vd m g u v, (n <= f)%nat -> 0 < c < d ->
  Z.abs uc * d + Z.abs ud * c = m -> uc * ud <= 0 ->
  inverse_loop f c d uc vc ud vd = Ok (g, u, v) -> 2 * Z.abs u <= m.
Proof.
  induction 1 as [n d|n c d Hc E IH]; intros f uc vc ud vd m g u v Hf Hcd I S R; [lia|].
  destruct f as [|f]; [lia|]. apply Z.eqb_neq in Hc as Hc'. cbn [inverse_loop] in R. rewrite Hc' in R.
  destruct (Z.eq_dec (d mod c) 0) as [Z0|NZ].
  - rewrite Z0 in R. assert (X : inverse_loop f 0 c (ud - d / c * uc) (vd - d / c * vc) uc vc = Ok (c, uc, vc)) by (destruct f; reflexivity).
    rewrite X in R. injection R as <- <- <-. nia.
  - assert (Hq : d mod c = d - d / c * c) by (rewrite Z.mod_eq by auto; lia).
    assert (Q : 0 <= d / c) by (apply Z.div_pos; lia). pose proof (Z.mod_pos_bound d c ltac:(lia)).
    apply (IH f (ud - d / c * uc) (vd - d / c * vc) uc vc m g u v); [lia|lia| | |exact R].
    + assert (A : Z.abs (ud - d / c * uc) = Z.abs ud + d / c * Z.abs uc) by nia. rewrite A, Hq, <- I. ring.
    + nia.
Qed.

Lemma no_unit v m : 2 <= m -> v * m = 1 -> False.
Proof. intros H E. assert (m <= 1) by (apply Z.divide_pos_le; [lia|exists v; lia]). lia. Qed.
Lemma inverse_mod_spec f a m : 2 <= m -> (steps m <= f)%nat ->
  (Z.gcd a m = 1 -> exists x, NumberTheory.inverse_mod f a m = Ok x /\ 1 <= x <= m - 1 /\ (a * x) mod m = 1) /\
  (Z.gcd a m <> 1 -> NumberTheory.inverse_mod f a m = Raise AssertionError).
Proof.
  intros Hm Hf. unfold NumberTheory.inverse_mod.
  assert (X : (if (a <? 0) || (m <=? a) then py_mod a m else Ok a) = Ok (a mod m)).
  { unfold py_mod. replace (m =? 0) with false by lia. destruct ((a <? 0) || (m <=? a)) eqn:E; [reflexivity|].
    rewrite Z.mod_small by lia. reflexivity. }
  rewrite X. cbn [bind]. pose proof (Z.mod_pos_bound a m ltac:(lia)) as Ba.
  assert (Hs : (steps (a mod m) <= f)%nat) by (eapply Nat.le_trans; [apply steps_le|exact Hf]; lia).
  destruct (inverse_loop_euclid _ _ _ (euclid_fuel (a mod m) m) f 1 0 0 1 (a mod m) m) as (g & u & v & A & B & C);
    [exact Hs|lia|lia|lia|lia|].
  rewrite A. cbn [bind]. rewrite Z.gcd_mod, Z.gcd_comm in C by lia. unfold py_assert.
  split; intros G.
  - rewrite G in C. rewrite C in A, B |- *. cbn [Z.eqb Pos.eqb bind].
    assert (a mod m <> 0). { intros Z0. rewrite Z0 in B. apply (no_unit v m Hm). lia. }
    pose proof (inverse_loop_bound _ _ _ (euclid_fuel (a mod m) m) f 1 0 0 1 m 1 u v Hs ltac:(lia) ltac:(lia) ltac:(lia) A) as U.
    assert (u <> 0). { intros ->. apply (no_unit v m Hm). lia. }
    eexists. split; [reflexivity|].
    assert (K : forall k, (a * (u + k * m)) mod m = 1).
    { intros k. replace (a * (u + k * m)) with (a * u + a * k * m) by ring. rewrite Z.mod_add by lia.
      rewrite <- Z.mul_mod_idemp_l by lia. replace (a mod m * u) with (1 + (- v) * m) by lia. rewrite Z.mod_add by lia.
      apply Z.mod_small. lia. }
    destruct (0 <? u) eqn:EU; (split; [lia|]).
    + specialize (K 0). now rewrite Z.mul_0_l, Z.add_0_r in K.
    + specialize (K 1). now rewrite Z.mul_1_l in K.
  - rewrite C. apply Z.eqb_neq in G. rewrite G. reflexivity.
Qed.
Lemma inverse_unique a m x y : 2 <= m -> 1 <= x <= m - 1 -> 1 <= y <= m - 1 -> (a * x) mod m = 1 -> (a * y) mod m = 1 -> x = y.
Proof.
  intros Hm Hx Hy E1 E2.
  assert (F : (x * (a * y)) mod m = (y * (a * x)) mod m) by (f_equal; ring).
  rewrite <- (Z.mul_mod_idemp_r x), <- (Z.mul_mod_idemp_r y), E1, E2, !Z.mul_1_r, !Z.mod_small in F by lia. exact F.
Qed.

(** ** galoisfield *)
Lemma egcd_euclid n a b : euclid n a b -> forall f, (n < f)%nat ->
  exists g x y, egcd f a b = Ok (g, x, y) /\ a * x + b * y = g /\ Z.abs g = Z.gcd a b /\
    (0 <= a -> 0 <= b -> 0 <= g) /\ (a < 0 -> g < 0).
Proof.
  induction 1 as [n b|n a b Ha E IH]; intros f Hf; (destruct f as [|f]; [lia|]); cbn [egcd].
  - exists b, 0, 1. split; [reflexivity|]. split; [lia|]. split; [reflexivity|]. split; [auto|lia].
  - apply Z.eqb_neq in Ha as Ha'. rewrite Ha'. assert (Hf' : (n < f)%nat) by lia.
    destruct (IH f Hf') as (g & x & y & A & B & C & D & F). rewrite A.
    cbn [bind]. exists g, (y - b / a * x), x. split; [reflexivity|].
    assert (Hq : b mod a = b - b / a * a) by (rewrite Z.mod_eq by auto; lia).
    split; [rewrite <- B, Hq; ring|]. split; [rewrite C, Z.gcd_mod by auto; reflexivity|]. split.
    + intros. apply D; auto. apply Z.mod_pos_bound. lia.
    + intros N. pose proof (Z.mod_neg_bound b a N).
      destruct (Z.eq_dec (b mod a) 0) as [Z0|NZ]; [|apply F; lia].
      rewrite Z0 in *. destruct f as [|f']; [discriminate|]. cbn in A. injection A as <- <- <-. exact N.
Qed.
Lemma gf_inverse_spec f x p : 1 < p -> 0 <= x -> (steps x < f)%nat -> Z.gcd x p = 1 ->
  exists i, GaloisField.inverse_mod f x p = Ok i /\ 0 <= i < p /\ (x * i) mod p = 1.
Proof.
  intros Hp Hx Hf G. destruct (egcd_euclid _ _ _ (euclid_fuel x p) f Hf) as (g & u & v & A & B & C & D & _).
  specialize (D Hx ltac:(lia)). unfold GaloisField.inverse_mod. rewrite A. cbn [bind].
  assert (g = 1) as H by lia. rewrite H in A, B |- *. cbn [Z.eqb Pos.eqb negb]. unfold py_mod. replace (p =? 0) with false by lia.
  eexists. split; [reflexivity|]. split; [apply Z.mod_pos_bound; lia|]. rewrite Z.mul_mod_idemp_r by lia.
  replace (x * u) with (1 + (- v) * p) by lia. rewrite Z.mod_add by lia. apply Z.mod_small. lia.
Qed.
Lemma gf_inverse_raises f x p : 0 < p -> (x < 0 \/ 0 <= x /\ Z.gcd x p <> 1) -> (steps x < f)%nat ->
  GaloisField.inverse_mod f x p = Raise GenericException.
Proof.
  intros Hp H Hf. destruct (egcd_euclid _ _ _ (euclid_fuel x p) f Hf) as (g & u & v & A & B & C & D & F).
  unfold GaloisField.inverse_mod. rewrite A. cbn [bind]. replace (g =? 1) with false; [reflexivity|].
  symmetry. apply Z.eqb_neq. destruct H as [N|[N G]]; [specialize (F N); lia|]. specialize (D N ltac:(lia)). lia.
Qed.

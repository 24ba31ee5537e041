(** scalar_multiple computes multiples in the group. *)
From Coq Require Import Znumtheory Setoid Lia.
From Verif Require Import Proofs.Tac Proofs.Cong Proofs.Primality Proofs.NTBasic Proofs.Fp Proofs.ECGroup Proofs.Curve Proofs.CurveProg.
From Verif Require Import Model.Py Model.NumberTheory Model.Ecc Spec.CurveSpec Spec.CurveView.
Local Open Scope Z_scope.

(** ** the digits of the scalar *)
Lemma land_pow x j : 0 <= j -> (Z.land x (2 ^ j) =? 0) = negb (Z.testbit x j).
Proof.
  intros J. assert (E : Z.land x (2 ^ j) = if Z.testbit x j then 2 ^ j else 0).
  { apply Z.bits_inj'. intros m M. rewrite Z.land_spec. rewrite (Z.pow2_bits_eqb j m) by lia. destruct (Z.eqb_spec j m) as [<-|N].
    - rewrite andb_true_r. destruct (Z.testbit x j); [now rewrite Z.pow2_bits_true|now rewrite Z.bits_0].
    - rewrite andb_false_r. destruct (Z.testbit x j); [now rewrite Z.pow2_bits_false|now rewrite Z.bits_0]. }
  rewrite E. assert (P := Z.pow_pos_nonneg 2 j). destruct (Z.testbit x j); [|reflexivity]. apply Z.eqb_neq. lia.
Qed.
Lemma div_pow_step x j : 0 <= j -> x / 2 ^ j = 2 * (x / 2 ^ (j + 1)) + Z.b2z (Z.testbit x j).
Proof.
  intros J. rewrite Z.testbit_spec' by lia. rewrite Z.pow_add_r, Z.pow_1_r by lia. rewrite <- Z.div_div by lia. apply Z.div_mod. lia.
Qed.
(** the multiple reached after the bits from j upwards *)
Definition digit_val (e j : Z) : Z := 3 * e / 2 ^ j - e / 2 ^ j.
Lemma digit_last e : digit_val e 1 = e.
Proof. unfold digit_val. change (2 ^ 1) with 2. lia. Qed.
Lemma digit_step e j : 0 <= j -> digit_val e j = 2 * digit_val e (j + 1) + Z.b2z (Z.testbit (3 * e) j) - Z.b2z (Z.testbit e j).
Proof. intros J. unfold digit_val. rewrite (div_pow_step (3 * e) j), (div_pow_step e j) by exact J. lia. Qed.
Lemma digit_first e : 0 < e -> digit_val e (Z.log2 (3 * e)) = 1.
Proof.
  intros E. unfold digit_val. destruct (Z.log2_spec (3 * e)) as (A & B); [lia|]. rewrite Z.pow_succ_r in B by apply Z.log2_nonneg.
  set (D := 2 ^ Z.log2 (3 * e)) in *. rewrite (Z.div_small e D) by lia. replace (3 * e / D) with 1; [reflexivity|]. apply Z.div_unique with (3 * e - D); lia.
Qed.
Lemma digit_bounds e t : 0 < e -> 2 <= t <= Z.log2 (3 * e) -> 1 <= digit_val e t /\ 2 * digit_val e t <= e + 1 /\ (3 <= t -> 2 * digit_val e t <= e).
Proof.
  intros E T. unfold digit_val. destruct (Z.log2_spec (3 * e)) as (A & _); [lia|].
  assert (L : 2 ^ t <= 2 ^ Z.log2 (3 * e)) by (apply Z.pow_le_mono_r; lia). assert (M : 2 ^ 2 <= 2 ^ t) by (apply Z.pow_le_mono_r; lia).
  assert (M3 : 3 <= t -> 2 ^ 3 <= 2 ^ t) by (intros; apply Z.pow_le_mono_r; lia). change (2 ^ 2) with 4 in M. change (2 ^ 3) with 8 in M3.
  set (D := 2 ^ t) in *. assert (D3 : D <= 3 * e) by lia. clear A L.
  assert (Q1 := Z.div_mod (3 * e) D ltac:(lia)). assert (Q2 := Z.div_mod e D ltac:(lia)).
  assert (R1 := Z.mod_pos_bound (3 * e) D ltac:(lia)). assert (R2 := Z.mod_pos_bound e D ltac:(lia)).
  assert (P1 : 1 <= 3 * e / D) by (apply Z.div_le_lower_bound; lia).
  assert (S2 : e < D -> e / D = 0) by (intros; apply Z.div_small; lia).
  set (q := 3 * e / D) in *. set (q' := e / D) in *. set (r := (3 * e) mod D) in *. set (r' := e mod D) in *.
  assert (V : D * (q - q') = 2 * e - r + r') by lia. clearbody q q' r r' D. set (v := q - q') in *.
  assert (P : 1 <= v). { destruct (Z.lt_ge_cases e D) as [H|H]; [specialize (S2 H); lia|]. nia. }
  split; [exact P|]. split.
  - destruct (Z.le_gt_cases (2 * v) (e + 1)) as [H|H]; [exact H|exfalso]. nia.
  - intros T3. specialize (M3 T3). destruct (Z.le_gt_cases (2 * v) e) as [H|H]; [exact H|exfalso]. nia.
Qed.
Lemma digit_divide e t n : 0 < e < n -> 2 <= t <= Z.log2 (3 * e) -> (n | 2 * digit_val e t) -> t = 2 /\ e = n - 1 /\ n mod 4 = 0.
Proof.
  intros E T (k & K). destruct (digit_bounds e t) as (A & B & C); [lia|exact T|]. assert (k = 1) by nia. subst k.
  assert (E' : e = n - 1) by lia. destruct (Z.eq_dec t 2) as [->|N]; [|lia]. split; [reflexivity|]. split; [exact E'|].
  unfold digit_val in K. change (2 ^ 2) with 4 in K. clear - K E'. subst e. assert (n mod 4 = 0 \/ n mod 4 = 1 \/ n mod 4 = 2 \/ n mod 4 = 3) by (assert (H := Z.mod_pos_bound n 4); lia). lia.
Qed.
Lemma leftmost_ok f x r : 0 < x -> 0 <= r -> (Z.to_nat (Z.log2 x + 1 - r) <= f)%nat -> r <= Z.log2 x + 1 -> leftmost_loop f x (2 ^ r) = Ok (2 ^ (Z.log2 x + 1)).
Proof.
  intros X. revert r. induction f as [|f IH]; intros r R F L.
  - replace r with (Z.log2 x + 1) by lia. cbn [leftmost_loop]. destruct (Z.leb_spec (2 ^ (Z.log2 x + 1)) x) as [H|H]; [|reflexivity].
    destruct (Z.log2_spec x X) as (_ & B). unfold Z.succ in B. lia.
  - cbn [leftmost_loop]. destruct (Z.log2_spec x X) as (A & B). unfold Z.succ in B. destruct (Z.leb_spec (2 ^ r) x) as [H|H].
    + assert (r <= Z.log2 x) by (apply Z.log2_le_pow2; auto). replace (2 * 2 ^ r) with (2 ^ (r + 1)) by (rewrite Z.pow_add_r by lia; lia). apply IH; lia.
    + f_equal. f_equal. destruct (Z.eq_dec r (Z.log2 x + 1)) as [|N]; [assumption|]. exfalso. assert (2 ^ r <= 2 ^ Z.log2 x) by (apply Z.pow_le_mono_r; lia). lia.
Qed.
Lemma leftmost_bit_ok f x : 0 < x -> (Z.to_nat (Z.log2 x + 1) <= f)%nat -> leftmost_bit f x = Ok (2 ^ Z.log2 x).
Proof.
  intros X F. unfold leftmost_bit. replace (0 <? x) with true by lia. cbn [py_assert bind]. change 1 with (2 ^ 0) at 1.
  rewrite leftmost_ok; try lia; [|assert (H := Z.log2_nonneg x); lia]. cbn [bind]. f_equal. rewrite Z.pow_add_r by (try apply Z.log2_nonneg; lia). apply Z.div_mul. discriminate.
Qed.

Section Mul.
Context (c : curve) (Hp : prime (c_p c)) (p3 : 3 < c_p c) (NS : nonsingular (c_p c) (c_a c) (c_b c)) (fuel : nat) (Hf : (steps (c_p c) <= fuel)%nat).
Local Notation p := (c_p c).
Local Notation a := (c_a c).
Local Notation b := (c_b c).
Local Notation den := (denotes c).
Local Notation g P := (h p (denotes c P)).
Local Notation "A ++ B" := (gadd p a A B).
Local Notation zmul := (zmul p a).
Lemma gon_g P : valid c P -> gon p a b (g P).
Proof. intros V. apply h_on; auto. now apply valid_on. Qed.
Lemma add_g P Q : valid c P -> valid c Q -> exists R, add_points fuel c P Q = Ok R /\ valid c R /\ g R = g P ++ g Q /\ (P <> Inf -> Q <> Inf -> red c R).
Proof.
  intros VP VQ. destruct (add_ok c Hp p3 fuel Hf P Q VP VQ) as (R & E & V & S & RR). exists R. split; [exact E|]. split; [exact V|]. split; [|exact RR].
  symmetry. apply (sum_iff p Hp p3 a b); auto using valid_on.
Qed.
Lemma double_g P : valid c P -> g P ++ g P <> O -> exists R, double_point fuel c P = Ok R /\ valid c R /\ g R = g P ++ g P /\ red c R.
Proof.
  intros V N. destruct P as [|x y]; [now destruct N|]. destruct (double_ok c Hp p3 fuel Hf x y V) as (R & E & VR & RR & S).
  - intros Y. apply N. assert (D : g (Aff x y) = gopp p (g (Aff x y))). { rewrite <- h_neg by exact Hp. f_equal. cbn. f_equal. f_equal. rewrite Y. symmetry. apply Z.mod_0_l. lia. }
    rewrite D at 2. apply gadd_opp. exact Hp.
  - exists R. split; [exact E|]. split; [exact VR|]. split; [|exact RR]. symmetry. apply (sum_iff p Hp p3 a b); auto using valid_on.
Qed.
Lemma double_g_fail P : valid c P -> g P <> O -> g P ++ g P = O -> double_point fuel c P = Raise AssertionError.
Proof.
  intros V N E. destruct P as [|x y]; [now destruct N|]. apply double_fail; auto. destruct (Z.eq_dec (y mod p) 0) as [|N0]; [assumption|exfalso].
  destruct (double_ok c Hp p3 fuel Hf x y V N0) as (R & _ & VR & _ & S). apply (sum_iff p Hp p3 a b) in S; auto using valid_on. rewrite E in S.
  apply (zero_opp p Hp p3 a b NS) in E; auto using gon_g. cbn in E. rewrite <- fi_opp in E by exact Hp. injection E as E. rewrite Zmod_mod in E.
  assert (K : cong p (y + y) 0). { transitivity (y + - y); [|apply cong_refl_eq; ring]. assert (C : cong p y (- y)). { split. rewrite E. rewrite Zopp_mod_idemp || idtac. apply uncong. now cmod. } rewrite <- C. reflexivity. }
  apply cong_divide in K; [|lia]. replace (y + y - 0) with (2 * y) in K by ring. apply prime_mult in K; [|exact Hp]. destruct K as [K|K]; [apply Z.divide_pos_le in K; lia|].
  apply N0. apply Z.mod_divide; [lia|exact K].
Qed.

Context (P : point) (x y : Z) (EP : P = Aff x y) (V : valid c P) (e : Z) (Pe : 0 < e).
Local Notation A := (g P).
Lemma loop_to j' d : forall f R, (d <= f)%nat -> 0 <= j' -> valid c R ->
  g R = zmul (digit_val e (j' + Z.of_nat d + 1)) A ->
  (forall t, j' + 2 <= t <= j' + Z.of_nat d + 1 -> zmul (2 * digit_val e t) A <> O) ->
  exists R', valid c R' /\ (red c R -> red c R') /\ g R' = zmul (digit_val e (j' + 1)) A /\
    scalar_loop fuel c f P (Aff x (- y)) e (3 * e) (2 ^ (j' + Z.of_nat d)) R = scalar_loop fuel c (f - d) P (Aff x (- y)) e (3 * e) (2 ^ j') R'.
Proof.
  induction d as [|d IH]; intros f R F J VR E N.
  - exists R. split; [exact VR|]. split; [auto|]. rewrite Nat.sub_0_r. replace (j' + Z.of_nat 0) with j' in * by lia. auto.
  - destruct f as [|f]; [lia|]. set (j := j' + Z.of_nat (S d)) in *. assert (1 <= j) by lia. cbn [scalar_loop].
    assert (P2 : 1 < 2 ^ j) by (apply Z.pow_gt_1; lia). replace (1 <? 2 ^ j) with true by lia.
    assert (GA := gon_g P V). assert (D2 : g R ++ g R = zmul (2 * digit_val e (j + 1)) A). { rewrite E, <- (zmul_add p Hp p3 a b NS) by exact GA. f_equal. ring. }
    destruct (double_g R VR) as (R1 & -> & V1 & G1 & RR1); [rewrite D2; apply N; lia|]. cbn [bind]. rewrite D2 in G1.
    assert (NI : R1 <> Inf). { intros ->. apply (N (j + 1)); [lia|]. now rewrite <- G1. }
    rewrite !land_pow by lia. assert (ST := digit_step e j ltac:(lia)).
    assert (VN : valid c (Aff x (- y)) /\ g (Aff x (- y)) = gopp p A).
    { subst P. destruct (negate_ok c p3 x y V) as (_ & W & D). split; [exact W|]. rewrite D. now apply h_neg. }
    destruct VN as (VN & GN).
    assert (HALF : 2 ^ j / 2 = 2 ^ (j' + Z.of_nat d)). { replace j with (j' + Z.of_nat d + 1) by lia. rewrite Z.pow_add_r by lia. apply Z.div_mul. discriminate. }
    assert (K : exists R2, (do result <- (if negb (negb (Z.testbit (3 * e) j)) && negb (Z.testbit e j) then add_points fuel c R1 P else Ok R1);
               do result <- (if negb (Z.testbit (3 * e) j) && negb (negb (Z.testbit e j)) then add_points fuel c result (Aff x (- y)) else Ok result);
               scalar_loop fuel c f P (Aff x (- y)) e (3 * e) (2 ^ j / 2) result) = scalar_loop fuel c f P (Aff x (- y)) e (3 * e) (2 ^ j / 2) R2 /\ valid c R2 /\ g R2 = zmul (digit_val e j) A /\ red c R2).
    { rewrite ST. destruct (Z.testbit (3 * e) j), (Z.testbit e j); cbn [negb andb bind Z.b2z].
      - exists R1. split; [reflexivity|]. split; [exact V1|]. split; [|exact RR1]. rewrite G1. f_equal. ring.
      - destruct (add_g R1 P V1 V) as (R2 & -> & V2 & G2 & RR2). cbn [bind]. exists R2. split; [reflexivity|]. split; [exact V2|]. split; [|apply RR2; [exact NI|subst P; discriminate]]. rewrite G2, G1, <- (zmul_succ p Hp p3 a b NS) by exact GA. f_equal. ring.
      - destruct (add_g R1 (Aff x (- y)) V1 VN) as (R2 & -> & V2 & G2 & RR2). cbn [bind]. exists R2. split; [reflexivity|]. split; [exact V2|]. split; [|apply RR2; [exact NI|subst P; discriminate]]. rewrite G2, G1, GN, <- (zmul_pred p Hp p3 a b NS) by exact GA. f_equal. ring.
      - exists R1. split; [reflexivity|]. split; [exact V1|]. split; [|exact RR1]. rewrite G1. f_equal. ring. }
    destruct K as (R2 & -> & V2 & G2 & RR2). rewrite HALF.
    destruct (IH f R2) as (R' & V' & RR' & G' & E'); [lia|lia|exact V2|rewrite G2; f_equal; f_equal; lia|intros t T; apply N; lia|].
    exists R'. split; [exact V'|]. split; [auto|]. split; [exact G'|]. exact E'.
Qed.

Lemma neg_ok : mk_point c x (- y) = Ok (Aff x (- y)).
Proof. subst P. exact (proj1 (negate_ok c p3 x y V)). Qed.
Context (n : Z) (En : e < n) (Hn : forall k, zmul k A = O <-> (n | k)).
Lemma mul_ok f : (Z.to_nat (Z.log2 (3 * e)) <= f)%nat -> n mod 4 <> 0 \/ e <> n - 1 ->
  exists R, scalar_loop fuel c f P (Aff x (- y)) e (3 * e) (2 ^ Z.log2 (3 * e) / 2) P = Ok R /\ valid c R /\ g R = zmul e A /\ (red c P -> red c R).
Proof.
  intros F C. assert (L : 1 <= Z.log2 (3 * e)) by (apply Z.log2_le_pow2; lia). set (J := Z.log2 (3 * e)) in *.
  destruct (loop_to 0 (Z.to_nat (J - 1)) f P) as (R & VR & RR & G & E).
  - lia.
  - lia.
  - exact V.
  - replace (0 + Z.of_nat (Z.to_nat (J - 1)) + 1) with J by lia. unfold J. rewrite digit_first by exact Pe. reflexivity.
  - intros t T Z0. apply Hn in Z0. apply digit_divide in Z0; [lia|lia|]. fold J. lia.
  - replace (0 + Z.of_nat (Z.to_nat (J - 1))) with (J - 1) in E by lia. replace (2 ^ J / 2) with (2 ^ (J - 1)).
    + rewrite E. exists R. change (2 ^ 0) with 1. change (0 + 1) with 1 in G. rewrite digit_last in G. split; [|auto]. now destruct (f - Z.to_nat (J - 1))%nat.
    + rewrite <- (Z.div_mul (2 ^ (J - 1)) 2) by lia. f_equal. replace 2 with (2 ^ 1) at 2 by reflexivity. rewrite <- Z.pow_add_r by lia. f_equal. lia.
Qed.
Lemma mul_fail f : (Z.to_nat (Z.log2 (3 * e)) <= f)%nat -> n mod 4 = 0 -> e = n - 1 ->
  scalar_loop fuel c f P (Aff x (- y)) e (3 * e) (2 ^ Z.log2 (3 * e) / 2) P = Raise AssertionError.
Proof.
  intros F C E1. assert (L : 3 <= Z.log2 (3 * e)). { apply Z.log2_le_pow2; [lia|]. change (2 ^ 3) with 8. lia. } set (J := Z.log2 (3 * e)) in *.
  destruct (loop_to 1 (Z.to_nat (J - 2)) f P) as (R & VR & RR & G & E).
  - lia.
  - lia.
  - exact V.
  - replace (1 + Z.of_nat (Z.to_nat (J - 2)) + 1) with J by lia. unfold J. rewrite digit_first by exact Pe. reflexivity.
  - intros t T Z0. apply Hn in Z0. apply digit_divide in Z0; [lia|lia|]. fold J. lia.
  - replace (1 + Z.of_nat (Z.to_nat (J - 2))) with (J - 1) in E by lia. replace (2 ^ J / 2) with (2 ^ (J - 1)).
    + rewrite E. change (2 ^ 1) with 2. change (1 + 1) with 2 in G.
      assert (D : digit_val e 2 = n / 2). { unfold digit_val. change (2 ^ 2) with 4. clear - C E1. lia. } rewrite D in G.
      destruct (f - Z.to_nat (J - 2))%nat eqn:FF; [lia|]. cbn [scalar_loop]. change (1 <? 2) with true. cbv iota. rewrite double_g_fail; [reflexivity|exact VR| |].
      * rewrite G. intros Z0. apply Hn in Z0. apply Z.divide_pos_le in Z0; clear - C E1 Pe Z0; lia.
      * rewrite G, <- (zmul_add p Hp p3 a b NS) by (now apply gon_g). apply Hn. exists 1. clear - C. lia.
    + rewrite <- (Z.div_mul (2 ^ (J - 1)) 2) by lia. f_equal. replace 2 with (2 ^ 1) at 2 by reflexivity. rewrite <- Z.pow_add_r by lia. f_equal. lia.
Qed.
End Mul.

Section Scalar.
Context (c : curve) (HE : elliptic c).
Local Notation p := (c_p c).
Local Notation a := (c_a c).
Local Notation b := (c_b c).
Definition mul_fuel : nat := Nat.max (steps p) (S (Z.to_nat (Z.log2 (3 * c_n c)))).
Lemma scalar_ok P k fuel : valid c P -> ec_order p a (denotes c P) (c_n c) -> (mul_fuel <= fuel)%nat ->
  (c_n c mod 4 <> 0 \/ k mod c_n c <> c_n c - 1 ->
   exists R, scalar_multiple fuel c P k = Ok R /\ valid c R /\ ec_zmultiple p a (denotes c P) k (denotes c R) /\ (red c P -> red c R)) /\
  (c_n c mod 4 = 0 -> k mod c_n c = c_n c - 1 -> scalar_multiple fuel c P k = Raise AssertionError).
Proof.
  destruct HE as (Hp & p3 & NS). intros V ORD F. unfold mul_fuel in F. assert (OP := valid_on c p3 P V).
  destruct (order_zmul p Hp p3 a b NS _ _ OP ORD) as (N1 & Hn). assert (G := gon_g c Hp p3 P V).
  unfold scalar_multiple, py_mod. replace (c_n c =? 0) with false by lia. cbn [bind].
  assert (R := Z.mod_pos_bound k (c_n c) ltac:(lia)). assert (E := zmul_mod p Hp p3 a b NS (c_n c) k _ G ltac:(lia) (proj2 (Hn _) (Z.divide_refl _))).
  set (e := k mod c_n c) in *.
  destruct (Z.eqb_spec e 0) as [E0|E0].
  { rewrite E0 in *. split; [|intros; exfalso; lia]. intros _. exists Inf. split; [reflexivity|]. split; [exact I|]. split; [|intros; exact I].
    apply (zmultiple_iff p Hp p3 a b); [exact OP|exact I|]. rewrite <- E. reflexivity. }
  destruct P as [|x y].
  { exfalso. assert (D : (c_n c | 1)) by (apply Hn; reflexivity). apply Z.divide_1_r_nonneg in D; [|clear - R; lia]. clear - R D E0. lia. }
  replace (0 <? e) with true by (clear - R E0; lia). cbn [py_assert bind]. rewrite (neg_ok c p3 (Aff x y) x y eq_refl V). cbn [bind].
  assert (L3 : Z.log2 (3 * e) <= Z.log2 (3 * c_n c)) by (apply Z.log2_le_mono; clear - R; lia).
  rewrite leftmost_bit_ok; [|clear - R E0; lia|clear - F L3; lia]. cbn [bind]. split.
  - intros C. destruct (mul_ok c Hp p3 NS fuel ltac:(clear - F; lia) (Aff x y) x y eq_refl V e ltac:(clear - R E0; lia) (c_n c) ltac:(clear - R; lia) Hn fuel ltac:(clear - F L3; lia) C) as (S & -> & VS & GS & RS).
    exists S. split; [reflexivity|]. split; [exact VS|]. split; [|exact RS]. apply (zmultiple_iff p Hp p3 a b); [exact OP|now apply valid_on|]. congruence.
  - intros C C'. apply (mul_fail c Hp p3 NS fuel ltac:(clear - F; lia) (Aff x y) x y eq_refl V e ltac:(clear - R E0; lia) (c_n c) ltac:(clear - R; lia) Hn fuel ltac:(clear - F L3; lia) C C').
Qed.
(** a point annihilated by a prime has that order *)
Lemma prime_order P : prime (c_n c) -> valid c P -> P <> Inf -> ec_multiple p a (denotes c P) (Z.to_nat (c_n c)) None -> ec_order p a (denotes c P) (c_n c).
Proof.
  destruct HE as (Hp & p3 & NS). intros Pn V NI M. assert (n2 := prime_ge_2 _ Pn). assert (OP := valid_on c p3 P V). assert (G := gon_g c Hp p3 P V).
  split; [clear - n2; lia|]. split; [exact M|]. intros k K M'. apply (multiple_iff p Hp p3 a b) in M, M'; [|exact OP|exact I|exact OP|exact I]. rewrite <- zmul_nat in M, M' by (clear - n2 K; lia).
  assert (RP : rel_prime k (c_n c)). { apply rel_prime_sym. apply prime_rel_prime; [exact Pn|]. intros D. apply Z.divide_pos_le in D; clear - D K; lia. }
  destruct (rel_prime_bezout _ _ RP) as [u v B].
  assert (Z1 : zmul p a 1 (h p (denotes c P)) = O).
  { rewrite <- B, (zmul_add p Hp p3 a b NS), !(zmul_mul p Hp p3 a b NS) by exact G. rewrite <- M, <- M'. now rewrite !zmul_O. }
  destruct P; [now apply NI|discriminate Z1].
Qed.
End Scalar.

(** The programs of SmallWeierstrassCurveFp compute in the group. *)
From Coq Require Import Znumtheory Setoid Lia.
From Verif Require Import Proofs.Tac Proofs.Cong Proofs.Primality Proofs.NTBasic Proofs.Fp Proofs.ECGroup Proofs.Curve.
From Verif Require Import Model.Py Model.NumberTheory Model.Ecc Spec.CurveSpec Spec.CurveView.
Local Open Scope Z_scope.

Section Prog.
Context (c : curve) (Hp : prime (c_p c)) (p3 : 3 < c_p c).
Local Notation p := (c_p c).
Local Notation a := (c_a c).
Local Notation b := (c_b c).
Local Notation den := (denotes c).
Definition red (P : point) : Prop := match P with Inf => True | Aff x y => 0 <= y < p end.

Lemma cong_0 x : cong p x 0 <-> x mod p = 0.
Proof. split; [intros [E]; rewrite E; apply Z.mod_0_l|intros E; split; rewrite E; symmetry; apply Z.mod_0_l]; lia. Qed.
Lemma cong_sub0 x y : (x - y) mod p = 0 <-> cong p x y.
Proof. rewrite (cong_divide p x y) by lia. apply Z.mod_divide. lia. Qed.
Lemma valid_on P : valid c P -> on_ec p a b (den P).
Proof.
  destruct P as [|x y]; [exact (fun H => H)|]. intros (R & E). split; [exact R|]. split; [apply Z.mod_pos_bound; lia|].
  apply cong_sub0. cmod. now apply cong_sub0.
Qed.
Lemma on_valid x y : on_ec p a b (Some (x, y)) -> valid c (Aff x y) /\ red (Aff x y) /\ den (Aff x y) = Some (x, y).
Proof. intros (A & B & E). split; [now split|]. split; [exact B|]. cbn. now rewrite Z.mod_small. Qed.
Lemma valid_on_curve P : valid c P -> on_curve c P = true.
Proof.
  destruct P as [|x y]; [reflexivity|]. intros (_ & E). cbn [on_curve]. apply Z.eqb_eq. apply cong_sub0 in E. replace (y ^ 2) with (y * y) by ring. replace (x ^ 3) with (x * x * x) by ring. exact (uncong E).
Qed.
Lemma on_curve_valid x y : 0 <= x < p -> on_curve c (Aff x y) = true -> valid c (Aff x y).
Proof.
  intros R E. split; [exact R|]. cbn [on_curve] in E. apply Z.eqb_eq in E. apply cong_sub0. replace (y ^ 2) with (y * y) in E by ring. replace (x ^ 3) with (x * x * x) in E by ring. now split.
Qed.
Lemma mk_ok x y : valid c (Aff x y) -> mk_point c x y = Ok (Aff x y).
Proof. intros V. unfold mk_point. now rewrite valid_on_curve. Qed.
Lemma negate_ok x y : valid c (Aff x y) -> negate c (Aff x y) = Ok (Aff x (- y)) /\ valid c (Aff x (- y)) /\ den (Aff x (- y)) = ec_neg p (den (Aff x y)).
Proof.
  intros (R & E). assert (V : valid c (Aff x (- y))). { split; [exact R|]. now replace (- y * - y) with (y * y) by ring. }
  split; [cbn [negate]; now apply mk_ok|]. split; [exact V|]. cbn. f_equal. f_equal. apply uncong. now cmod.
Qed.
Lemma den_inj P Q : red P -> red Q -> den P = den Q -> P = Q.
Proof. destruct P as [|x y], Q as [|x' y']; cbn; intros A B E; try discriminate; auto. injection E as -> E. rewrite !Z.mod_small in E by lia. congruence. Qed.
Context (fuel : nat) (Hf : (steps (c_p c) <= fuel)%nat).
Lemma inverse_ok x : x mod p <> 0 -> exists k, inverse fuel c x = Ok k /\ cong p (x * k) 1.
Proof.
  intros N. destruct (inverse_mod_spec fuel x p ltac:(lia) Hf) as (A & _). destruct A as (k & E & _ & M).
  - rewrite Z.gcd_comm. apply Zgcd_1_rel_prime. apply prime_rel_prime; [exact Hp|]. intros D. apply N. apply Z.mod_divide; [lia|exact D].
  - exists k. split; [exact E|]. split. rewrite M, Z.mod_1_l; lia.
Qed.
Lemma inverse_fail x : x mod p = 0 -> inverse fuel c x = Raise AssertionError.
Proof.
  intros N. destruct (inverse_mod_spec fuel x p ltac:(lia) Hf) as (_ & A). apply A.
  assert (E : Z.gcd x p = p). { apply Z.mod_divide in N; [|lia]. rewrite Z.gcd_comm. apply Z.divide_gcd_iff in N; lia. } lia.
Qed.
Lemma third_mk l x1 y1 x2 : third_point p l x1 y1 x2 ((l * l - x1 - x2) mod p) ((l * (x1 - (l * l - x1 - x2) mod p) - y1) mod p).
Proof. repeat split; try (apply Z.mod_pos_bound; lia); apply cong_sub0; now cmod. Qed.
Lemma third_cong l x1 y1 y1' x2 x3 y3 : cong p y1 y1' -> third_point p l x1 y1 x2 x3 y3 -> third_point p l x1 y1' x2 x3 y3.
Proof. intros E (A & B & C & D). repeat split; auto; try lia. apply cong_sub0 in D. apply cong_sub0. now rewrite D, E. Qed.
Lemma sum_mk P Q x3 y3 : valid c P -> valid c Q -> ec_sum p a (den P) (den Q) (Some (x3, y3)) ->
  mk_point c x3 y3 = Ok (Aff x3 y3) /\ valid c (Aff x3 y3) /\ red (Aff x3 y3) /\ ec_sum p a (den P) (den Q) (den (Aff x3 y3)).
Proof.
  intros VP VQ S. destruct (sum_h p Hp p3 a b _ _ _ (valid_on _ VP) (valid_on _ VQ) S) as (O & _).
  destruct (on_valid _ _ O) as (V & R & D). split; [now apply mk_ok|]. split; [exact V|]. split; [exact R|]. now rewrite D.
Qed.
Lemma double_ok x y : valid c (Aff x y) -> y mod p <> 0 ->
  exists R, double_point fuel c (Aff x y) = Ok R /\ valid c R /\ red R /\ ec_sum p a (den (Aff x y)) (den (Aff x y)) (den R).
Proof.
  intros V N. cbn [double_point]. destruct (inverse_ok (2 * y)) as (k & -> & K).
  { intros E. apply Z.mod_divide in E; [|lia]. apply prime_mult in E; [|exact Hp]. destruct E as [E|E]; [apply Z.divide_pos_le in E; lia|]. apply N. apply Z.mod_divide; [lia|exact E]. }
  cbn [bind]. set (l := ((3 * x * x + a) * k) mod p). replace (l * l - 2 * x) with (l * l - x - x) by ring.
  assert (T := third_mk l x y x). set (x3 := (l * l - x - x) mod p) in *. set (y3 := (l * (x - x3) - y) mod p) in *.
  assert (S : ec_sum p a (den (Aff x y)) (den (Aff x y)) (Some (x3, y3))).
  { cbn [denotes]. apply sum_tangent with (l := l); [exact N| |].
    - apply cong_sub0. unfold l. cmod. transitivity ((3 * x * x + a) * (2 * y * k)); [apply cong_refl_eq; ring|]. rewrite K. apply cong_refl_eq. ring.
    - apply third_cong with (y1 := y); [now cmod|exact T]. }
  destruct (sum_mk _ _ _ _ V V S) as (-> & W & R & D). exists (Aff x3 y3). auto.
Qed.
Lemma double_fail x y : y mod p = 0 -> double_point fuel c (Aff x y) = Raise AssertionError.
Proof. intros N. cbn [double_point]. rewrite inverse_fail; [reflexivity|]. apply cong_0 in N. apply (proj1 (cong_0 _)). rewrite N. reflexivity. Qed.
Theorem add_ok P Q : valid c P -> valid c Q ->
  exists R, add_points fuel c P Q = Ok R /\ valid c R /\ ec_sum p a (den P) (den Q) (den R) /\ (P <> Inf -> Q <> Inf -> red R).
Proof.
  intros VP VQ. destruct Q as [|x2 y2]. { exists P. split; [reflexivity|]. split; [exact VP|]. split; [apply sum_zero_r|congruence]. }
  destruct P as [|x1 y1]. { exists (Aff x2 y2). split; [reflexivity|]. split; [exact VQ|]. split; [apply sum_zero_l|congruence]. }
  cbn [add_points]. destruct (Z.eqb_spec x1 x2) as [<-|N].
  - destruct (Z.eqb_spec ((y1 + y2) mod p) 0) as [E|E].
    + exists Inf. split; [reflexivity|]. split; [exact I|]. split; [|intros; exact I].
      replace (den (Aff x1 y2)) with (ec_neg p (den (Aff x1 y1))); [apply sum_opposite|]. cbn. f_equal. f_equal. apply uncong.
      cmod. apply cong_0 in E. transitivity (y1 + y2 - y1); [|apply cong_refl_eq; ring]. rewrite E. apply cong_refl_eq; ring.
    + assert (N : y1 mod p <> 0 /\ cong p y2 y1).
      { destruct VP as (A & VP), VQ as (_ & VQ). apply cong_sub0 in VP, VQ.
        assert (D : (p | (y1 - y2) * (y1 + y2))). { apply Z.mod_divide; [lia|]. replace ((y1 - y2) * (y1 + y2)) with (y1 * y1 - y2 * y2) by ring. apply cong_sub0. now rewrite VP, VQ. }
        apply prime_mult in D; [|exact Hp]. destruct D as [D|D]; [|exfalso; apply E; apply Z.mod_divide; [lia|exact D]].
        assert (K : cong p y1 y2) by (apply cong_divide; [lia|exact D]). split; [|now symmetry]. intros N. apply E.
        apply cong_0 in N. apply (proj1 (cong_0 _)). rewrite <- K, N. reflexivity. }
      destruct N as (N & K). destruct (double_ok x1 y1 VP N) as (R & -> & V & RR & S). exists R. split; [reflexivity|]. split; [exact V|]. split; [|auto].
      replace (den (Aff x1 y2)) with (den (Aff x1 y1)); [exact S|]. cbn. f_equal. f_equal. symmetry. exact (uncong K).
  - assert (N' : (x2 - x1) mod p <> 0). { destruct VP as (A & _), VQ as (B & _). now apply diff_nz. }
    destruct (inverse_ok (x2 - x1) N') as (k & -> & K). cbn [bind]. set (l := ((y2 - y1) * k) mod p).
    assert (T := third_mk l x1 y1 x2). set (x3 := (l * l - x1 - x2) mod p) in *. set (y3 := (l * (x1 - x3) - y1) mod p) in *.
    assert (S : ec_sum p a (den (Aff x1 y1)) (den (Aff x2 y2)) (Some (x3, y3))).
    { cbn [denotes]. apply sum_chord with (l := l); [exact N| |].
      - apply cong_sub0. unfold l. cmod. transitivity ((y2 - y1) * ((x2 - x1) * k)); [apply cong_refl_eq; ring|]. rewrite K. apply cong_refl_eq. ring.
      - apply third_cong with (y1 := y1); [now cmod|exact T]. }
    destruct (sum_mk _ _ _ _ VP VQ S) as (-> & W & R & D). exists (Aff x3 y3). auto.
Qed.
Lemma add_commutes P Q : valid c P -> valid c Q -> add_points fuel c P Q = add_points fuel c Q P.
Proof.
  intros VP VQ. destruct P as [|x1 y1]; [now destruct Q|]. destruct Q as [|x2 y2]; [reflexivity|].
  destruct (add_ok _ _ VP VQ) as (R & -> & V & S & RR). destruct (add_ok _ _ VQ VP) as (R' & -> & V' & S' & RR'). f_equal.
  apply den_inj; [apply RR; discriminate|apply RR'; discriminate|].
  assert (O := valid_on _ VP). assert (O' := valid_on _ VQ). apply (h_inj p a b); [now apply valid_on..|].
  apply (sum_iff p Hp p3 a b) in S; [|auto using valid_on..]. apply (sum_iff p Hp p3 a b) in S'; [|auto using valid_on..]. rewrite <- S, <- S'.
  apply (gadd_comm p Hp p3 a b); now apply (h_on p Hp).
Qed.
End Prog.

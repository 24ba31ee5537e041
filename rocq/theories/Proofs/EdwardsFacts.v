(** C88. *)
From Coq Require Import Znumtheory Field Setoid Lia.
From Verif Require Import Proofs.Tac Proofs.Cong Proofs.Primality Proofs.NTBasic Proofs.Fp Proofs.Curve Proofs.MontAdd.
From Verif Require Import Model.Py Model.NumberTheory Model.Ecc Spec.EdwardsSpec.
Local Open Scope Z_scope.

Section Ed.
Context (p : Z) (Hp : prime p).
Local Notation i := (fi p).
Let FT := fp_field p Hp.
Add Field Fpfield4 : FT.
Ltac fpush := repeat rewrite ?fi_mod, ?fi_add, ?fi_sub, ?fi_mul, ?fi_opp, ?fi_mod by exact Hp.
Local Notation "x [+] y" := (fadd p x y) (at level 50, left associativity).
Local Notation "x [-] y" := (fsub p x y) (at level 50, left associativity).
Local Notation "x [*] y" := (fmul p x y) (at level 40, left associativity).
Lemma p1 : 1 < p. Proof. assert (H := prime_ge_2 p Hp). lia. Qed.
Lemma f0_mul u v : u [*] v = i 0 -> u = i 0 \/ v = i 0.
Proof.
  destruct (fp_surj p u) as (x & ->), (fp_surj p v) as (y & ->). rewrite <- fi_mul by exact Hp. rewrite !(fi_0 p Hp). assert (H := p1). intros E. apply Z.mod_divide in E; [|lia].
  apply prime_mult in E; [|exact Hp]. destruct E as [E|E]; [left|right]; (apply Z.mod_divide; [lia|exact E]).
Qed.
Lemma f_sub u v : u [-] v = i 0 <-> u = v.
Proof. split; [intros E|intros ->; ring]. transitivity (u [-] v [+] v); [ring|]. rewrite E. ring. Qed.
Lemma on_fp a d x y : on_edwards p a d x y <-> i a [*] (i x [*] i x) [+] i y [*] i y = i 1 [+] i d [*] ((i x [*] i y) [*] (i x [*] i y)).
Proof.
  unfold on_edwards. rewrite (fi_diff p Hp). replace (a * x ^ 2 + y ^ 2) with (a * (x * x) + y * y) by ring. replace (1 + d * x ^ 2 * y ^ 2) with (1 + d * ((x * y) * (x * y))) by ring. fpush. reflexivity.
Qed.
Lemma te_fp a d x y : te_on_curve p a d x y = true <-> i a [*] (i x [*] i x) [+] i y = i 1 [+] i d [*] ((i x [*] i y) [*] (i x [*] i y)).
Proof.
  unfold te_on_curve. rewrite Z.eqb_eq, <- (fi_0 p Hp). fpush. split; intros E.
  - apply f_sub. rewrite <- E. ring.
  - apply f_sub in E. rewrite <- E. ring.
Qed.
Lemma te_point_dec a d x y : te_point p a d x y = if (a * x ^ 2 + y - (1 + d * x ^ 2 * y ^ 2)) mod p =? 0 then Ok (x, y) else Raise AssertionError.
Proof. unfold te_point, te_on_curve. replace (a * (x * x) - 1 + y * (1 - d * (x * x) * y)) with (a * x ^ 2 + y - (1 + d * x ^ 2 * y ^ 2)) by ring. now destruct (_ =? 0). Qed.
Lemma te_point_iff a d x y : (te_point p a d x y = Ok (x, y) <-> te_on_curve p a d x y = true) /\ (te_on_curve p a d x y = false -> te_point p a d x y = Raise AssertionError).
Proof. unfold te_point. destruct (te_on_curve p a d x y); cbn; split; split || idtac; congruence. Qed.
(** a point of the curve is accepted only if y is 0 or 1 *)
Lemma accepted a d x y : on_edwards p a d x y -> (te_on_curve p a d x y = true <-> y mod p = 0 \/ y mod p = 1).
Proof.
  rewrite on_fp, te_fp. assert (P := p1). intros H. rewrite <- (fi_0 p Hp). assert (Y : y mod p = 1 <-> i y = i 1).
  { rewrite (fi_eq p). split; [intros E; split; rewrite E, Z.mod_1_l; lia|intros [E]; rewrite E, Z.mod_1_l; lia]. }
  rewrite Y. rewrite <- H. split.
  - intros E. assert (K : i y [*] (i y [-] i 1) = i 0).
    { transitivity ((i a [*] (i x [*] i x) [+] i y [*] i y) [-] (i a [*] (i x [*] i x) [+] i y)); [ring|]. rewrite E. ring. }
    apply f0_mul in K as [K|K]; [now left|right]. now apply f_sub.
  - intros [E|E]; rewrite E; ring.
Qed.
Lemma accepted_points a d x y : (a - d) mod p <> 0 -> on_edwards p a d x y ->
  (te_on_curve p a d x y = true <-> (x mod p = 0 /\ y mod p = 1) \/ (y mod p = 0 /\ (a * x ^ 2) mod p = 1)).
Proof.
  intros N H. rewrite (accepted _ _ _ _ H). apply on_fp in H. assert (P := p1).
  assert (Y : forall z, z mod p = 1 <-> i z = i 1). { intros z. rewrite (fi_eq p). split; [intros E; split; rewrite E, Z.mod_1_l; lia|intros [E]; rewrite E, Z.mod_1_l; lia]. }
  rewrite !Y, <- !(fi_0 p Hp). replace (a * x ^ 2) with (a * (x * x)) by ring. fpush. split.
  - intros [E|E].
    + right. split; [exact E|]. rewrite E in H. transitivity (i a [*] (i x [*] i x) [+] i 0 [*] i 0); [ring|]. rewrite H. ring.
    + left. split; [|exact E]. rewrite E in H. assert (K : (i a [-] i d) [*] (i x [*] i x) = i 0).
      { transitivity ((i a [*] (i x [*] i x) [+] i 1 [*] i 1) [-] (i 1 [+] i d [*] (i x [*] i 1 [*] (i x [*] i 1)))); [ring|]. rewrite H. ring. }
      apply f0_mul in K as [K|K]; [exfalso; apply N; apply (fi_diff p Hp); now apply f_sub|]. now apply f0_mul in K as [K|K].
  - intros [(_ & E)|(E & _)]; [now right|now left].
Qed.
Lemma mod_1_fp z v : (z * v) mod p = 1 -> i z [*] i v = i 1.
Proof. intros E. assert (P := p1). rewrite <- fi_mul by exact Hp. apply fi_eq. split. now rewrite E, Z.mod_1_l by lia. Qed.
Lemma ed_sum_ex a d x1 y1 x2 y2 : ed_defined p d x1 y1 x2 y2 -> forall u v, ((1 + d * x1 * x2 * y1 * y2) * u) mod p = 1 -> ((1 - d * x1 * x2 * y1 * y2) * v) mod p = 1 ->
  ed_sum p a d x1 y1 x2 y2 (((x1 * y2 + x2 * y1) * u) mod p) (((y1 * y2 - a * x1 * x2) * v) mod p).
Proof.
  intros D u v U V. assert (P := p1). apply mod_1_fp in U, V. split; [apply Z.mod_pos_bound; lia|]. split; [apply Z.mod_pos_bound; lia|]. split; apply (fi_diff p Hp); rewrite (fi_mul p), (fi_mod p).
  - rewrite (fi_mul p (_ + _) u). replace (x1 * y2 + y1 * x2) with (x1 * y2 + x2 * y1) by ring.
    match type of U with ?t = _ => transitivity (i (x1 * y2 + x2 * y1) [*] t); [ring|rewrite U; ring] end.
  - rewrite (fi_mul p (_ - _) v). match type of V with ?t = _ => transitivity (i (y1 * y2 - a * x1 * x2) [*] t); [ring|rewrite V; ring] end.
Qed.
Lemma ed_sum_fun a d x1 y1 x2 y2 x3 y3 x3' y3' : ed_defined p d x1 y1 x2 y2 -> ed_sum p a d x1 y1 x2 y2 x3 y3 -> ed_sum p a d x1 y1 x2 y2 x3' y3' -> x3 = x3' /\ y3 = y3'.
Proof.
  intros (D & D') (X & Y & E & F) (X' & Y' & E' & F').
  assert (K : forall z w w' t, z mod p <> 0 -> 0 <= w < p -> 0 <= w' < p -> (w * z - t) mod p = 0 -> (w' * z - t) mod p = 0 -> w = w').
  { intros z w w' t N W W' G G'. apply (fi_diff p Hp) in G, G'. apply (fi_inj p); [assumption..|]. apply f_sub.
    assert (H : (i w [-] i w') [*] i z = i 0). { rewrite (fi_mul p) in G, G'. transitivity (i w [*] i z [-] i w' [*] i z); [ring|]. rewrite G, G'. ring. }
    apply f0_mul in H as [H|H]; [exact H|]. exfalso. apply N. now apply (fi_0 p Hp). }
  split; [exact (K _ _ _ _ D X X' E E')|exact (K _ _ _ _ D' Y Y' F F')].
Qed.
Lemma te_add_ok a d x1 y1 x2 y2 fuel : (steps p <= fuel)%nat ->
  (ed_defined p d x1 y1 x2 y2 -> exists x3 y3, ed_sum p a d x1 y1 x2 y2 x3 y3 /\ te_add fuel p a d (x1, y1) (x2, y2) = te_point p a d x3 y3) /\
  (~ ed_defined p d x1 y1 x2 y2 -> te_add fuel p a d (x1, y1) (x2, y2) = Raise AssertionError).
Proof.
  intros F. assert (P := p1). destruct (inverse_mod_spec fuel (1 + d * x1 * x2 * y1 * y2) p ltac:(lia) F) as (A & B). destruct (inverse_mod_spec fuel (1 - d * x1 * x2 * y1 * y2) p ltac:(lia) F) as (A' & B').
  rewrite (prime_gcd_1 p) in A, B, A', B' by exact Hp. unfold te_add. split.
  - intros D. assert (D' := D). destruct D' as (D1 & D2). destruct (A D1) as (u & -> & _ & U). destruct (A' D2) as (v & -> & _ & V). cbn [bind]. eexists _, _. split; [|reflexivity]. now apply ed_sum_ex.
  - intros D. destruct (Z.eq_dec ((1 + d * x1 * x2 * y1 * y2) mod p) 0) as [E|N].
    + rewrite B; [reflexivity|tauto].
    + destruct (A N) as (u & -> & _ & U). cbn [bind]. rewrite B'; [reflexivity|]. intros N'. apply D. split; assumption.
Qed.
(** ** the group law *)
Lemma closure (a d x1 y1 x2 y2 x3 y3 : Fp p) :
  a [*] (x1 [*] x1) [+] y1 [*] y1 = i 1 [+] d [*] ((x1 [*] y1) [*] (x1 [*] y1)) ->
  a [*] (x2 [*] x2) [+] y2 [*] y2 = i 1 [+] d [*] ((x2 [*] y2) [*] (x2 [*] y2)) ->
  i 1 [+] d [*] x1 [*] x2 [*] y1 [*] y2 <> i 0 -> i 1 [-] d [*] x1 [*] x2 [*] y1 [*] y2 <> i 0 ->
  x3 [*] (i 1 [+] d [*] x1 [*] x2 [*] y1 [*] y2) = x1 [*] y2 [+] y1 [*] x2 ->
  y3 [*] (i 1 [-] d [*] x1 [*] x2 [*] y1 [*] y2) = y1 [*] y2 [-] a [*] x1 [*] x2 ->
  a [*] (x3 [*] x3) [+] y3 [*] y3 = i 1 [+] d [*] ((x3 [*] y3) [*] (x3 [*] y3)).
Proof.
  intros H1 H2 N N' X Y. apply f_sub. set (E := d [*] x1 [*] x2 [*] y1 [*] y2) in *. set (D := i 1 [+] E) in *. set (D' := i 1 [-] E) in *.
  set (u := x1 [*] y2 [+] y1 [*] x2) in *. set (v := y1 [*] y2 [-] a [*] x1 [*] x2) in *.
  match goal with |- ?t = _ => assert (K : (D [*] D') [*] (D [*] D') [*] t = i 0) end.
  { transitivity (a [*] (x3 [*] D [*] (x3 [*] D)) [*] (D' [*] D') [+] (y3 [*] D' [*] (y3 [*] D')) [*] (D [*] D) [-] (D [*] D') [*] (D [*] D') [-] d [*] ((x3 [*] D) [*] (x3 [*] D)) [*] ((y3 [*] D') [*] (y3 [*] D'))); [ring|].
    rewrite X, Y. set (S1 := a [*] (x1 [*] x1) [+] y1 [*] y1) in *. set (S2 := a [*] (x2 [*] x2) [+] y2 [*] y2) in *.
    set (m1 := x1 [*] y1) in *. set (m2 := x2 [*] y2) in *.
    transitivity (S1 [*] S2 [*] (i 1 [+] E [*] E) [-] (i 1 [-] E [*] E) [*] (i 1 [-] E [*] E) [-] d [*] (m1 [*] m1) [*] (S2 [*] S2) [-] d [*] (m2 [*] m2) [*] (S1 [*] S1)); [unfold S1, S2, m1, m2, u, v, D, D', E; ring|].
    rewrite H1, H2. unfold m1, m2, E. ring. }
  apply f0_mul in K as [K|K]; [exfalso|exact K]. apply f0_mul in K as [K|K]; apply f0_mul in K as [K|K]; contradiction.
Qed.
Lemma sum_on a d x1 y1 x2 y2 x3 y3 : on_edwards p a d x1 y1 -> on_edwards p a d x2 y2 -> ed_defined p d x1 y1 x2 y2 -> ed_sum p a d x1 y1 x2 y2 x3 y3 -> on_edwards p a d x3 y3.
Proof.
  rewrite !on_fp. intros H1 H2 (D & D') (_ & _ & X & Y). apply (fi_diff p Hp) in X, Y. revert X Y. rewrite <- (fi_0 p Hp) in D, D'. revert D D'. fpush. apply closure; assumption.
Qed.
(** ** completeness *)
Lemma complete_fp (s d x1 y1 x2 y2 e : Fp p) : i 1 [+] i 1 <> i 0 -> (forall r, r [*] r <> d) ->
  s [*] s [*] (x1 [*] x1) [+] y1 [*] y1 = i 1 [+] d [*] ((x1 [*] y1) [*] (x1 [*] y1)) ->
  s [*] s [*] (x2 [*] x2) [+] y2 [*] y2 = i 1 [+] d [*] ((x2 [*] y2) [*] (x2 [*] y2)) ->
  e [*] e = i 1 -> d [*] x1 [*] x2 [*] y1 [*] y2 = e -> False.
Proof.
  intros N2 NS H1 H2 Ee E. assert (N1 : i 1 <> i 0) by (intros K; apply N2; rewrite K; ring).
  assert (Ne : e <> i 0). { intros K. apply N1. rewrite <- Ee, K. ring. }
  assert (NX1 : x1 <> i 0) by (intros K; apply Ne; rewrite <- E, K; ring). assert (NX2 : x2 <> i 0) by (intros K; apply Ne; rewrite <- E, K; ring).
  assert (NY1 : y1 <> i 0) by (intros K; apply Ne; rewrite <- E, K; ring). assert (NY2 : y2 <> i 0) by (intros K; apply Ne; rewrite <- E, K; ring).
  set (m := x1 [*] y1) in *. assert (Nm : m <> i 0) by (intros K; apply f0_mul in K as [K|K]; contradiction).
  assert (B : s [*] s [*] (x1 [*] x1) [+] y1 [*] y1 = d [*] (m [*] m) [*] (s [*] s [*] (x2 [*] x2) [+] y2 [*] y2)).
  { rewrite H1, H2. transitivity (e [*] e [+] d [*] (m [*] m)); [rewrite Ee; ring|]. rewrite <- E. unfold m. ring. }
  assert (SQ : forall w t, t [*] t = d [*] (m [*] m) [*] (w [*] w) -> w = i 0).
  { intros w t H. destruct (fp_dec p w (i 0)) as [W|W]; [exact W|]. exfalso. apply (NS (fdiv p t (m [*] w))).
    transitivity (fdiv p (t [*] t) (m [*] w [*] (m [*] w))); [field; split; assumption|]. rewrite H. field. split; assumption. }
  assert (C1 : s [*] x2 [+] y2 = i 0).
  { apply (SQ _ (s [*] x1 [+] e [*] y1)). transitivity (s [*] s [*] (x1 [*] x1) [+] e [*] e [*] (y1 [*] y1) [+] (i 1 [+] i 1) [*] s [*] m [*] e); [unfold m; ring|].
    rewrite Ee. transitivity ((s [*] s [*] (x1 [*] x1) [+] y1 [*] y1) [+] (i 1 [+] i 1) [*] s [*] m [*] e); [ring|]. rewrite B, <- E. unfold m. ring. }
  assert (C2 : s [*] x2 [-] y2 = i 0).
  { apply (SQ _ (s [*] x1 [-] e [*] y1)). transitivity (s [*] s [*] (x1 [*] x1) [+] e [*] e [*] (y1 [*] y1) [-] (i 1 [+] i 1) [*] s [*] m [*] e); [unfold m; ring|].
    rewrite Ee. transitivity ((s [*] s [*] (x1 [*] x1) [+] y1 [*] y1) [-] (i 1 [+] i 1) [*] s [*] m [*] e); [ring|]. rewrite B, <- E. unfold m. ring. }
  assert (K : (i 1 [+] i 1) [*] y2 = i 0). { transitivity ((s [*] x2 [+] y2) [-] (s [*] x2 [-] y2)); [ring|]. rewrite C1, C2. ring. }
  apply f0_mul in K as [K|K]; contradiction.
Qed.
End Ed.

Lemma c88_point : forall p a d x y, 0 < p -> te_point p a d x y = if (a * x ^ 2 + y - (1 + d * x ^ 2 * y ^ 2)) mod p =? 0 then Ok (x, y) else Raise AssertionError.
Proof. intros p a d x y _. apply te_point_dec. Qed.
Lemma c88_accepted_refuted : forall p a d x y, prime p -> (a - d) mod p <> 0 -> on_edwards p a d x y ->
  (te_point p a d x y = Ok (x, y) <-> (x mod p = 0 /\ y mod p = 1) \/ (y mod p = 0 /\ (a * x ^ 2) mod p = 1)) /\
  (~ ((x mod p = 0 /\ y mod p = 1) \/ (y mod p = 0 /\ (a * x ^ 2) mod p = 1)) -> te_point p a d x y = Raise AssertionError).
Proof.
  intros p a d x y Hp N H. destruct (te_point_iff p a d x y) as (A & B). rewrite <- (accepted_points p Hp a d x y N H). split; [exact A|]. intros K. apply B. destruct (te_on_curve p a d x y); [now exfalso|reflexivity].
Qed.
Lemma c88_add : forall p a d x1 y1 x2 y2, prime p -> exists fuel0, forall fuel, (fuel0 <= fuel)%nat ->
  (ed_defined p d x1 y1 x2 y2 -> exists x3 y3, ed_sum p a d x1 y1 x2 y2 x3 y3 /\ te_add fuel p a d (x1, y1) (x2, y2) = te_point p a d x3 y3) /\
  (~ ed_defined p d x1 y1 x2 y2 -> te_add fuel p a d (x1, y1) (x2, y2) = Raise AssertionError) /\
  te_double fuel p a d (x1, y1) = te_add fuel p a d (x1, y1) (x1, y1).
Proof. intros p a d x1 y1 x2 y2 Hp. exists (steps p). intros fuel F. destruct (te_add_ok p Hp a d x1 y1 x2 y2 fuel F) as (A & B). auto. Qed.
Lemma c88_sum : forall p a d x1 y1 x2 y2, prime p -> on_edwards p a d x1 y1 -> on_edwards p a d x2 y2 -> ed_defined p d x1 y1 x2 y2 ->
  exists x3 y3, ed_sum p a d x1 y1 x2 y2 x3 y3 /\ on_edwards p a d x3 y3 /\ forall x y, ed_sum p a d x1 y1 x2 y2 x y -> x = x3 /\ y = y3.
Proof.
  intros p a d x1 y1 x2 y2 Hp H1 H2 D. destruct (te_add_ok p Hp a d x1 y1 x2 y2 (steps p) (le_n _)) as (A & _). destruct (A D) as (x3 & y3 & S & _). exists x3, y3. split; [exact S|].
  split; [now apply (sum_on p Hp a d x1 y1 x2 y2)|]. intros x y S'. now apply (ed_sum_fun p Hp a d x1 y1 x2 y2).
Qed.
Lemma c88_complete : forall p a d s x1 y1 x2 y2, prime p -> 2 < p -> (s ^ 2 - a) mod p = 0 -> (forall r, (r ^ 2 - d) mod p <> 0) -> on_edwards p a d x1 y1 -> on_edwards p a d x2 y2 ->
  ed_defined p d x1 y1 x2 y2.
Proof.
  intros p a d s x1 y1 x2 y2 Hp P2 S NS H1 H2. apply (on_fp p Hp) in H1, H2. apply (fi_diff p Hp) in S. replace (s ^ 2) with (s * s) in S by ring. rewrite (fi_mul p) in S. rewrite <- S in H1, H2.
  assert (FT := fp_field p Hp). assert (RT := F_R FT).
  assert (N2 : fadd p (fi p 1) (fi p 1) <> fi p 0). { rewrite <- (fi_add p). intros E. apply (fi_0 p Hp) in E. rewrite Z.mod_small in E; lia. }
  assert (NS' : forall r, fmul p r r <> fi p d). { intros r E. destruct (fp_surj p r) as (z & ->). apply (NS z). apply (fi_diff p Hp). replace (z ^ 2) with (z * z) by ring. now rewrite (fi_mul p). }
  assert (C := fun e => complete_fp p Hp _ _ _ _ _ _ e N2 NS' H1 H2).
  split; intros E.
  - apply (C (fi p (-1))); [rewrite <- (fi_mul p); reflexivity|]. rewrite <- !(fi_mul p). apply (fi_diff p Hp). rewrite <- E. f_equal. ring.
  - apply (C (fi p 1)); [rewrite <- (fi_mul p); reflexivity|]. rewrite <- !(fi_mul p). apply (fi_diff p Hp). replace (d * x1 * x2 * y1 * y2 - 1) with (- (1 - d * x1 * x2 * y1 * y2)) by ring. apply Z.mod_opp_l_z; [lia|exact E].
Qed.
Lemma c88_double_refuted : forall p a d x, prime p -> 2 < p -> (a * x ^ 2) mod p = 1 -> exists fuel0, forall fuel, (fuel0 <= fuel)%nat ->
  te_point p a d x 0 = Ok (x, 0) /\ te_double fuel p a d (x, 0) = Raise AssertionError /\ ed_sum p a d x 0 x 0 0 (p - 1).
Proof.
  intros p a d x Hp P2 E. exists (steps p). intros fuel F. rewrite te_point_dec.
  assert (A1 : (a * x ^ 2 + 0 - (1 + d * x ^ 2 * 0 ^ 2)) mod p = 0). { replace (a * x ^ 2 + 0 - (1 + d * x ^ 2 * 0 ^ 2)) with (a * x ^ 2 - 1) by ring. rewrite Zminus_mod, E, Z.mod_1_l by lia. apply Z.mod_0_l. lia. }
  rewrite A1. split; [reflexivity|].
  assert (S : ed_sum p a d x 0 x 0 0 (p - 1)).
  { split; [lia|]. split; [lia|]. split; [replace (0 * (1 + d * x * x * 0 * 0) - (x * 0 + 0 * x)) with 0 by ring; apply Z.mod_0_l; lia|].
    replace ((p - 1) * (1 - d * x * x * 0 * 0) - (0 * 0 - a * x * x)) with (a * x ^ 2 - 1 + 1 * p) by ring. rewrite Z.mod_add, Zminus_mod, E, Z.mod_1_l by lia. apply Z.mod_0_l. lia. }
  split; [|exact S]. assert (D : ed_defined p d x 0 x 0).
  { split; [replace (1 + d * x * x * 0 * 0) with 1 by ring|replace (1 - d * x * x * 0 * 0) with 1 by ring]; rewrite Z.mod_1_l; lia. }
  destruct (te_add_ok p Hp a d x 0 x 0 fuel F) as (A & _). destruct (A D) as (x3 & y3 & S' & E'). destruct (ed_sum_fun p Hp a d x 0 x 0 _ _ _ _ D S S') as (<- & <-).
  unfold te_double. rewrite E', te_point_dec. replace (a * 0 ^ 2 + (p - 1) - (1 + d * 0 ^ 2 * (p - 1) ^ 2)) with (p - 2) by ring. rewrite Z.mod_small by lia. now replace (p - 2 =? 0) with false by lia.
Qed.

(** Twisted Edwards curves e x^2 + y^2 = 1 + d x^2 y^2 over any field of characteristic not 2 or 3:
    the map to the Montgomery curve with e = (a + 2)/B, d = (a - 2)/B respects sums. *)
From Coq Require Import List Bool Ring Field Setoid.
From Verif Require Import Proofs.ECGroup Proofs.Montgomery.
Import ListNotations.

Section E.
Context {F : Type} (zero one : F) (fadd fmul fsub : F -> F -> F) (fopp : F -> F) (fdiv : F -> F -> F) (finv : F -> F).
Context (FT : field_theory zero one fadd fmul fsub fopp fdiv finv (@eq F)).
Context (dec : forall x y : F, {x = y} + {x <> y}).
Add Field Ffield3 : FT.
Local Notation "0" := zero.
Local Notation "1" := one.
Local Infix "+" := fadd.
Local Infix "*" := fmul.
Local Infix "-" := fsub.
Local Infix "/" := fdiv.
Local Notation "- x" := (fopp x).
Local Notation "2" := (1 + 1).
Local Notation "3" := (1 + 1 + 1).
Local Notation "4" := ((1 + 1) * (1 + 1)).
Context (two_nz : 2 <> 0) (three_nz : 3 <> 0) (a B : F) (B_nz : B <> 0) (a_ns : a * a - 4 <> 0).
Local Notation mul_nz' := (mul_nz _ _ _ _ _ _ _ _ FT dec).
Local Notation mul_0 := (mul_eq_0 _ _ _ _ _ _ _ _ FT dec).
Local Notation sub_0 := (sub_eq_0 _ _ _ _ _ _ _ _ FT).
Local Notation wa := (Montgomery.wa one fadd fmul fsub fdiv a B).
Local Notation wb := (Montgomery.wb one fadd fmul fsub fdiv a B).
Local Notation gon := (on fadd fmul wa wb).
Local Notation add := (add zero one fadd fmul fsub fdiv dec wa).
Local Infix "++" := add.
Local Notation M := (Montgomery.M one fadd fdiv a B).
Definition ce : F := (a + 2) / B.
Definition cd : F := (a - 2) / B.
Definition on_ed (x y : F) : Prop := ce * x * x + y * y = 1 + cd * x * x * y * y.

(** ** the rational identities, with y = (u - 1)/(u + 1) and x = 1/s *)
Section Identities.
Context (u s : F) (u_nz : u <> 0) (s_nz : s <> 0) (u1_nz : u + 1 <> 0).
Lemma tangent_u : let x := 1 / s in let y := (u - 1) / (u + 1) in let A := B * s * s - u - 1 / u in let l := (3 * u * u + 2 * A * u + 1) / (2 * B * (u * s)) in
  let u3 := B * l * l - A - u - u in let t := (A - 2) / B * x * x * y * y in
  u3 * (1 - t - (y * y - (A + 2) / B * x * x)) = 1 - t + (y * y - (A + 2) / B * x * x).
Proof. cbv zeta. field. auto. Qed.
Lemma tangent_v : let x := 1 / s in let y := (u - 1) / (u + 1) in let A := B * s * s - u - 1 / u in let l := (3 * u * u + 2 * A * u + 1) / (2 * B * (u * s)) in
  let u3 := B * l * l - A - u - u in let t := (A - 2) / B * x * x * y * y in
  (l * (u - u3) - u * s) * (x * y + y * x) = u3 * (1 + t).
Proof. cbv zeta. field. auto. Qed.
(** y2 = - y1 *)
Context (N : 1 - u * u <> 0).
Lemma twistp_u : let x1 := 1 / s in let y1 := (u - 1) / (u + 1) in let x2 := 1 / s in let y2 := - y1 in let A := B * s * s - u - 1 / u in let l := (1 / u * s - u * s) / (1 / u - u) in
  let u3 := B * l * l - A - u - 1 / u in let t := (A - 2) / B * x1 * x2 * y1 * y2 in
  u3 * (1 - t - (y1 * y2 - (A + 2) / B * x1 * x2)) = 1 - t + (y1 * y2 - (A + 2) / B * x1 * x2).
Proof. cbv zeta. field. repeat split; auto. Qed.
Lemma twistp_v : let x1 := 1 / s in let y1 := (u - 1) / (u + 1) in let x2 := 1 / s in let y2 := - y1 in let A := B * s * s - u - 1 / u in let l := (1 / u * s - u * s) / (1 / u - u) in
  let u3 := B * l * l - A - u - 1 / u in let t := (A - 2) / B * x1 * x2 * y1 * y2 in
  (l * (u - u3) - u * s) * (x1 * y2 + y1 * x2) = u3 * (1 + t).
Proof. cbv zeta. field. repeat split; auto. Qed.
Lemma twistm_u : let x1 := 1 / s in let y1 := (u - 1) / (u + 1) in let x2 := - (1 / s) in let y2 := - y1 in let A := B * s * s - u - 1 / u in let l := (1 / u * (- s) - u * s) / (1 / u - u) in
  let u3 := B * l * l - A - u - 1 / u in let t := (A - 2) / B * x1 * x2 * y1 * y2 in
  u3 * (1 - t - (y1 * y2 - (A + 2) / B * x1 * x2)) = 1 - t + (y1 * y2 - (A + 2) / B * x1 * x2).
Proof. cbv zeta. field. repeat split; auto. Qed.
Lemma twistm_v : let x1 := 1 / s in let y1 := (u - 1) / (u + 1) in let x2 := - (1 / s) in let y2 := - y1 in let A := B * s * s - u - 1 / u in let l := (1 / u * (- s) - u * s) / (1 / u - u) in
  let u3 := B * l * l - A - u - 1 / u in let t := (A - 2) / B * x1 * x2 * y1 * y2 in
  (l * (u - u3) - u * s) * (x1 * y2 + y1 * x2) = u3 * (1 + t).
Proof. cbv zeta. field. repeat split; auto. Qed.
End Identities.
Section Identities2.
Context (u1 s1 u2 s2 : F) (u1_nz : u1 <> 0) (s1_nz : s1 <> 0) (u11_nz : u1 + 1 <> 0) (u2_nz : u2 <> 0) (s2_nz : s2 <> 0) (u21_nz : u2 + 1 <> 0)
  (N1 : u2 - u1 <> 0) (N1' : u1 - u2 <> 0) (N2 : u1 * u2 - 1 <> 0) (N3 : s1 * s1 - s2 * s2 <> 0).
Lemma chord_u : let x1 := 1 / s1 in let y1 := (u1 - 1) / (u1 + 1) in let x2 := 1 / s2 in let y2 := (u2 - 1) / (u2 + 1) in
  let b := (u1 - u2) * (u1 * u2 - 1) / (u1 * u2 * (s1 * s1 - s2 * s2)) in
  let A := b * s1 * s1 - u1 - 1 / u1 in let l := (u2 * s2 - u1 * s1) / (u2 - u1) in
  let u3 := b * l * l - A - u1 - u2 in let t := (A - 2) / b * x1 * x2 * y1 * y2 in
  u3 * (1 - t - (y1 * y2 - (A + 2) / b * x1 * x2)) = 1 - t + (y1 * y2 - (A + 2) / b * x1 * x2).
Proof. cbv zeta. field. repeat split; auto. Qed.
Lemma chord_v : let x1 := 1 / s1 in let y1 := (u1 - 1) / (u1 + 1) in let x2 := 1 / s2 in let y2 := (u2 - 1) / (u2 + 1) in
  let b := (u1 - u2) * (u1 * u2 - 1) / (u1 * u2 * (s1 * s1 - s2 * s2)) in
  let A := b * s1 * s1 - u1 - 1 / u1 in let l := (u2 * s2 - u1 * s1) / (u2 - u1) in
  let u3 := b * l * l - A - u1 - u2 in let t := (A - 2) / b * x1 * x2 * y1 * y2 in
  (l * (u1 - u3) - u1 * s1) * (x1 * y2 + y1 * x2) = u3 * (1 + t).
Proof. cbv zeta. field. repeat split; auto. Qed.
End Identities2.

(** ** the map *)
Lemma one_nz : 1 <> 0. Proof. exact (F_1_neq_0 FT). Qed.
Definition EM (x y : F) : pt := if dec x 0 then if dec y 1 then O else M 0 0 else M ((1 + y) / (1 - y)) ((1 + y) / (1 - y) / x).
Lemma ce_cd : ce - cd = 4 / B. Proof. unfold ce, cd. field. exact B_nz. Qed.
Lemma B4_nz : 4 / B <> 0.
Proof. intros E. apply two_nz. destruct (mul_0 2 2) as [X|X]; auto. transitivity (4 / B * B); [field; exact B_nz|]. rewrite E. ring. Qed.
(** a point has y = 1 or y = -1 exactly when x = 0 *)
Lemma ed_x0 y : on_ed 0 y -> y = 1 \/ y = fopp 1.
Proof.
  unfold on_ed. intros E. destruct (mul_0 (y - 1) (y + 1)) as [X|X].
  - transitivity (ce * 0 * 0 + y * y - (1 + cd * 0 * 0 * y * y)); [ring|]. rewrite E. ring.
  - left. now apply sub_0.
  - right. apply sub_0. rewrite <- X. ring.
Qed.
Lemma ed_y1 x y : on_ed x y -> y * y = 1 -> x = 0.
Proof.
  unfold on_ed. intros E Y. destruct (mul_0 (4 / B) (x * x)) as [X|X].
  - rewrite <- ce_cd. transitivity (ce * x * x + y * y - (1 + cd * x * x * (y * y)) - y * y + 1 + cd * x * x * (y * y - 1)); [ring|].
    transitivity (ce * x * x + y * y - (1 + cd * x * x * y * y) - y * y + 1 + cd * x * x * (y * y - 1)); [ring|]. rewrite E, Y. ring.
  - now apply B4_nz in X.
  - destruct (mul_0 x x X); assumption.
Qed.
Lemma one_y x y : on_ed x y -> x <> 0 -> 1 - y <> 0 /\ 1 + y <> 0.
Proof.
  intros H N. split; intros E; apply N; apply (ed_y1 x y H).
  - replace y with (1 - (1 - y)) by ring. rewrite E. ring.
  - replace y with (1 + y - 1) by ring. rewrite E. ring.
Qed.
(** u and s *)
Definition cu (y : F) : F := (1 + y) / (1 - y).
Lemma us_facts x y : on_ed x y -> x <> 0 -> let u := cu y in let s := 1 / x in
  u <> 0 /\ s <> 0 /\ u + 1 <> 0 /\ x = 1 / s /\ y = (u - 1) / (u + 1) /\ a = B * s * s - u - 1 / u /\ EM x y = M u (u * s).
Proof.
  intros H N. destruct (one_y x y H N) as (N1 & N2). cbv zeta.
  assert (U : cu y <> 0). { unfold cu. intros E. apply N2. transitivity ((1 + y) / (1 - y) * (1 - y)); [field; exact N1|]. rewrite E. ring. }
  assert (S : 1 / x <> 0). { intros E. apply (F_1_neq_0 FT). transitivity (1 / x * x); [field; exact N|]. rewrite E. ring. }
  assert (U1 : cu y + 1 <> 0). { unfold cu. intros E. apply two_nz. transitivity (((1 + y) / (1 - y) + 1) * (1 - y)); [field; exact N1|]. rewrite E. ring. }
  split; [exact U|]. split; [exact S|]. split; [exact U1|]. split; [field; auto using one_nz|].
  split. { unfold cu in *. field. split; [exact N1|]. intros E. apply two_nz. rewrite <- E. ring. }
  split.
  - apply sub_0. assert (K : (ce * x * x + y * y) - (1 + cd * x * x * y * y) = 0) by (unfold on_ed in H; rewrite H; ring). unfold cu.
    transitivity (B * ((ce * x * x + y * y) - (1 + cd * x * x * y * y)) / (x * x * (1 - y) * (1 + y))); [unfold ce, cd; field; auto|]. rewrite K. field. auto.
  - unfold EM. destruct (dec x 0) as [E|_]; [contradiction|]. unfold cu. f_equal. field. auto.
Qed.
Lemma ed_same_y x x' y : on_ed x y -> on_ed x' y -> x <> 0 -> x' <> 0 -> x' = x \/ x' = - x.
Proof.
  intros H H' N N'. destruct (us_facts x y H N) as (U & S & _ & _ & _ & A & _). destruct (us_facts x' y H' N') as (_ & S' & _ & _ & _ & A' & _). cbv zeta in *.
  assert (E : B * ((1 / x - 1 / x') * (1 / x + 1 / x')) = 0).
  { transitivity (B * (1 / x) * (1 / x) - cu y - 1 / cu y - (B * (1 / x') * (1 / x') - cu y - 1 / cu y)); [field; auto|]. rewrite <- A, <- A'. ring. }
  apply mul_0 in E as [E|E]; [contradiction|]. apply mul_0 in E as [E|E].
  - left. apply sub_0. transitivity (x * x' * (1 / x - 1 / x')); [field; auto|]. rewrite E. ring.
  - right. apply sub_0. transitivity (x * x' * (1 / x + 1 / x')); [field; auto|]. rewrite E. ring.
Qed.
Lemma EM_on x y : on_ed x y -> gon (EM x y).
Proof.
  intros H. destruct (dec x 0) as [->|N].
  - unfold EM. destruct (dec 0 0) as [_|E]; [|congruence]. destruct (dec y 1); [exact I|]. apply (on_M _ _ _ _ _ _ _ _ FT dec three_nz a B B_nz). unfold f. ring.
  - destruct (us_facts x y H N) as (U & S & _ & _ & _ & A & ->). cbv zeta in *. apply (on_M _ _ _ _ _ _ _ _ FT dec three_nz a B B_nz). unfold f. rewrite A at 1. field. split; [exact U|exact N].
Qed.
(** from the two identities to the value *)
Lemma finish x3 y3 u v Dp Dm Np Nm : on_ed x3 y3 -> gon (M u v) -> Dp <> 0 -> Dm <> 0 -> x3 * Dp = Np -> y3 * Dm = Nm ->
  u * (Dm - Nm) = Dm + Nm -> v * Np = u * Dp -> M u v = EM x3 y3.
Proof.
  intros H G HP HM EX EY IU IV.
  assert (JU : u * (1 - y3) = 1 + y3).
  { apply sub_0. destruct (mul_0 Dm (u * (1 - y3) - (1 + y3))) as [X|X]; [|contradiction|exact X]. transitivity (u * (Dm - y3 * Dm) - (Dm + y3 * Dm)); [ring|]. rewrite EY, IU. ring. }
  assert (JV : v * x3 = u).
  { apply sub_0. destruct (mul_0 Dp (v * x3 - u)) as [X|X]; [|contradiction|exact X]. transitivity (v * (x3 * Dp) - u * Dp); [ring|]. rewrite EX, IV. ring. }
  unfold EM. destruct (dec x3 0) as [->|N].
  - assert (u0 : u = 0) by (rewrite <- JV; ring). rewrite u0 in G, JU |- *. destruct (dec y3 1) as [->|_].
    + exfalso. apply two_nz. transitivity (1 + 1); [ring|]. rewrite <- JU. ring.
    + f_equal. apply (on_M _ _ _ _ _ _ _ _ FT dec three_nz a B B_nz) in G. unfold f in G. destruct (mul_0 B (v * v)) as [X|X]; [|contradiction|].
      * transitivity (B * v * v); [ring|]. rewrite G. ring.
      * destruct (mul_0 v v X); assumption.
  - destruct (one_y x3 y3 H N) as (N1 & N2).
    assert (EU : u = (1 + y3) / (1 - y3)). { transitivity (u * (1 - y3) / (1 - y3)); [field; exact N1|]. rewrite JU. reflexivity. }
    rewrite <- EU. f_equal. transitivity (v * x3 / x3); [field; exact N|]. rewrite JV. reflexivity.
Qed.
Lemma EM_O : EM 0 1 = O.
Proof. unfold EM. destruct (dec 0 0) as [_|E]; [|congruence]. destruct (dec 1 1) as [_|E]; [reflexivity|congruence]. Qed.
Lemma EM_T : EM 0 (fopp 1) = M 0 0.
Proof.
  unfold EM. destruct (dec 0 0) as [_|E]; [|congruence]. destruct (dec (fopp 1) 1) as [E|_]; [|reflexivity].
  exfalso. apply two_nz. rewrite <- E at 1. ring.
Qed.
Lemma on_ed_neg x y : on_ed x y -> on_ed (- x) (- y).
Proof. unfold on_ed. intros H. transitivity (ce * x * x + y * y); [ring|]. rewrite H. ring. Qed.
Lemma on_ed_negy x y : on_ed x y -> on_ed x (- y).
Proof. unfold on_ed. intros H. transitivity (ce * x * x + y * y); [ring|]. rewrite H. ring. Qed.
Lemma neg_nz x : x <> 0 -> - x <> 0.
Proof. intros N E. apply N. transitivity (- - x); [ring|]. rewrite E. ring. Qed.
Lemma sub_nz x y : x <> y -> x - y <> 0.
Proof. intros N E. apply N. now apply sub_0. Qed.
(** the sum with (0, -1) *)
Lemma EM_shift x y : on_ed x y -> M 0 0 ++ EM x y = EM (- x) (- y).
Proof.
  intros H. destruct (dec x 0) as [->|N].
  - replace (- (0)) with 0 by ring. destruct (ed_x0 y H) as [->| ->].
    + rewrite EM_O, EM_T. reflexivity.
    + replace (- fopp 1) with 1 by ring. rewrite EM_O, EM_T. apply (vertical_M _ _ _ _ _ _ _ _ FT dec a B B_nz).
  - destruct (us_facts x y H N) as (U & S & U1 & _ & _ & A & ->).
    destruct (us_facts (- x) (- y) (on_ed_neg x y H) (neg_nz x N)) as (_ & _ & _ & _ & _ & _ & ->). cbv zeta in *.
    destruct (one_y x y H N) as (Y1 & Y2).
    rewrite (chord_M _ _ _ _ _ _ _ _ FT dec three_nz a B B_nz 0 0 (cu y) (cu y * (1 / x)) (1 / x)); [|congruence|ring].
    replace (B * (1 / x) * (1 / x) - a - 0 - cu y) with (1 / cu y) by (rewrite A; ring).
    assert (C : cu (- y) = 1 / cu y). { unfold cu. field. auto. }
    rewrite C. f_equal. field. repeat split; auto using neg_nz.
Qed.
Lemma EM_sum0 x1 y1 x2 y2 x3 y3 : x1 = 0 -> on_ed x1 y1 -> on_ed x2 y2 ->
  x3 * (1 + cd * x1 * x2 * y1 * y2) = x1 * y2 + y1 * x2 -> y3 * (1 - cd * x1 * x2 * y1 * y2) = y1 * y2 - ce * x1 * x2 ->
  EM x1 y1 ++ EM x2 y2 = EM x3 y3.
Proof.
  intros -> H1 H2 EX EY.
  assert (X : x3 = y1 * x2). { transitivity (x3 * (1 + cd * 0 * x2 * y1 * y2)); [ring|]. rewrite EX. ring. }
  assert (Y : y3 = y1 * y2). { transitivity (y3 * (1 - cd * 0 * x2 * y1 * y2)); [ring|]. rewrite EY. ring. }
  destruct (ed_x0 y1 H1) as [->| ->].
  - rewrite EM_O, X, Y. replace (1 * x2) with x2 by ring. replace (1 * y2) with y2 by ring. reflexivity.
  - rewrite EM_T, X, Y. replace (fopp 1 * x2) with (- x2) by ring. replace (fopp 1 * y2) with (- y2) by ring. apply EM_shift, H2.
Qed.
Lemma gon_sum P Q : gon P -> gon Q -> gon (P ++ Q).
Proof. apply (on_add _ _ _ _ _ _ _ _ FT dec two_nz). Qed.
Theorem EM_sum x1 y1 x2 y2 x3 y3 : on_ed x1 y1 -> on_ed x2 y2 -> on_ed x3 y3 ->
  1 + cd * x1 * x2 * y1 * y2 <> 0 -> 1 - cd * x1 * x2 * y1 * y2 <> 0 ->
  x3 * (1 + cd * x1 * x2 * y1 * y2) = x1 * y2 + y1 * x2 -> y3 * (1 - cd * x1 * x2 * y1 * y2) = y1 * y2 - ce * x1 * x2 ->
  EM x1 y1 ++ EM x2 y2 = EM x3 y3.
Proof.
  intros H1 H2 H3 HP HM EX EY.
  destruct (dec x1 0) as [Z|N1]; [now apply (EM_sum0 x1 y1 x2 y2 x3 y3)|].
  destruct (dec x2 0) as [Z|N2].
  { rewrite (add_comm _ _ _ _ _ _ _ _ FT dec two_nz wa wb) by now apply EM_on.
    apply (EM_sum0 x2 y2 x1 y1 x3 y3 Z H2 H1).
    - replace (cd * x2 * x1 * y2 * y1) with (cd * x1 * x2 * y1 * y2) by ring. rewrite EX. ring.
    - replace (cd * x2 * x1 * y2 * y1) with (cd * x1 * x2 * y1 * y2) by ring. rewrite EY. ring. }
  pose proof (EM_on x1 y1 H1) as G1. pose proof (EM_on x2 y2 H2) as G2. pose proof (gon_sum _ _ G1 G2) as G. clear G1 G2.
  destruct (us_facts x1 y1 H1 N1) as (U1 & S1 & V1 & X1 & Y1 & A1 & M1).
  destruct (us_facts x2 y2 H2 N2) as (U2 & S2 & V2 & X2 & Y2 & A2 & M2). cbv zeta in *.
  destruct (one_y x1 y1 H1 N1) as (P1 & Q1). destruct (one_y x2 y2 H2 N2) as (P2 & Q2).
  destruct (dec y1 y2) as [E|NE].
  - subst y2. destruct (ed_same_y x1 x2 y1 H1 H2 N1 N2) as [E|E].
    + (* doubling *)
      subst x2. clear M2 A2 X2 Y2 U2 S2 V2 N2. set (u := cu y1) in *. set (s := 1 / x1) in *. rewrite M1 in *.
      assert (W : u * s <> 0) by (apply mul_nz'; assumption).
      rewrite (tangent_M _ _ _ _ _ _ _ _ FT dec two_nz three_nz a B B_nz u (u * s) ((3 * u * u + 2 * a * u + 1) / (2 * B * (u * s)))) in G |- *; try exact W; try (field; auto).
      eapply finish; [exact H3|exact G|exact HP|exact HM|exact EX|exact EY| |].
      * pose proof (tangent_u u s U1 S1 V1) as T. cbv zeta in T. rewrite <- A1, <- X1, <- Y1 in T. unfold cd, ce. rewrite <- T. ring.
      * pose proof (tangent_v u s U1 S1 V1) as T. cbv zeta in T. rewrite <- A1, <- X1, <- Y1 in T. unfold cd, ce. rewrite T. ring.
    + (* opposite *)
      subst x2. rewrite M1, M2. replace (1 / - x1) with (- (1 / x1)) by (field; auto). replace (cu y1 * - (1 / x1)) with (- (cu y1 * (1 / x1))) by ring.
      rewrite (opp_sum_M _ _ _ _ _ _ _ _ FT dec a B B_nz).
      assert (X : x3 = 0). { destruct (mul_0 x3 (1 + cd * x1 * - x1 * y1 * y1)) as [X|X]; [rewrite EX; ring|exact X|contradiction]. }
      assert (Y : y3 = 1).
      { apply sub_0. destruct (mul_0 (y3 - 1) (1 - cd * x1 * - x1 * y1 * y1)) as [Y|Y]; [|exact Y|contradiction].
        transitivity (y3 * (1 - cd * x1 * - x1 * y1 * y1) - (1 - cd * x1 * - x1 * y1 * y1)); [ring|]. rewrite EY.
        transitivity (ce * x1 * x1 + y1 * y1 - (1 + cd * x1 * x1 * y1 * y1)); [ring|]. rewrite H1. ring. }
      rewrite X, Y. symmetry. exact EM_O.
  - destruct (dec y2 (- y1)) as [E|NO].
    + (* y2 = - y1 *)
      subst y2. assert (C : cu (- y1) = 1 / cu y1). { unfold cu. field. auto. }
      rewrite C in *. pose proof (on_ed_negy _ _ H2) as H2'. replace (- - y1) with y1 in H2' by ring.
      set (u := cu y1) in *.
      assert (D : u <> 1 / u).
      { intros X. apply NE. rewrite Y1. rewrite X at 1 2. field. repeat split; auto. }
      assert (D1 : 1 - u * u <> 0). { intros Z. apply D. apply sub_0. transitivity (- ((1 - u * u) / u)); [field; exact U1|]. rewrite Z. field. exact U1. }
      assert (D2 : 1 / u - u <> 0) by (apply sub_nz; congruence).
      destruct (ed_same_y x1 x2 y1 H1 H2' N1 N2) as [E|E]; subst x2.
      * set (s := 1 / x1) in *. rewrite M1, M2 in *.
        rewrite (chord_M _ _ _ _ _ _ _ _ FT dec three_nz a B B_nz u (u * s) (1 / u) (1 / u * s) ((1 / u * s - u * s) / (1 / u - u))) in G |- *; try exact D; try (field; auto).
        eapply finish; [exact H3|exact G|exact HP|exact HM|exact EX|exact EY| |].
        -- pose proof (twistp_u u s U1 S1 V1 D1) as T. cbv zeta in T. rewrite <- A1, <- X1, <- Y1 in T. unfold cd, ce. rewrite <- T. ring.
        -- pose proof (twistp_v u s U1 S1 V1 D1) as T. cbv zeta in T. rewrite <- A1, <- X1, <- Y1 in T. unfold cd, ce. rewrite T. ring.
      * replace (1 / - x1) with (- (1 / x1)) in * by (field; auto). set (s := 1 / x1) in *. rewrite M1, M2 in *.
        rewrite (chord_M _ _ _ _ _ _ _ _ FT dec three_nz a B B_nz u (u * s) (1 / u) (1 / u * - s) ((1 / u * - s - u * s) / (1 / u - u))) in G |- *; try exact D; try (field; auto).
        eapply finish; [exact H3|exact G|exact HP|exact HM|exact EX|exact EY| |].
        -- pose proof (twistm_u u s U1 S1 V1 D1) as T. cbv zeta in T. rewrite <- A1, <- X1, <- Y1 in T. unfold cd, ce. rewrite <- T. ring.
        -- pose proof (twistm_v u s U1 S1 V1 D1) as T. cbv zeta in T. rewrite <- A1, <- X1, <- Y1 in T. unfold cd, ce. rewrite T. ring.
    + (* the general chord *)
      set (u1 := cu y1) in *. set (s1 := 1 / x1) in *. set (u2 := cu y2) in *. set (s2 := 1 / x2) in *.
      assert (D : u1 <> u2). { intros X. apply NE. rewrite Y1, Y2, X. reflexivity. }
      assert (D' : u1 * u2 - 1 <> 0).
      { intros X. apply NO. assert (W : u2 = 1 / u1). { apply sub_0. transitivity ((u1 * u2 - 1) / u1); [field; exact U1|]. rewrite X. field. exact U1. }
        rewrite Y2, Y1, W. field. auto. }
      assert (K : B * (u1 * u2 * (s1 * s1 - s2 * s2)) = (u1 - u2) * (u1 * u2 - 1)).
      { apply sub_0. transitivity (u1 * u2 * ((B * s1 * s1 - u1 - 1 / u1) - (B * s2 * s2 - u2 - 1 / u2))); [field; auto|]. rewrite <- A1, <- A2. ring. }
      assert (D3 : s1 * s1 - s2 * s2 <> 0).
      { intros X. rewrite X in K. destruct (mul_0 (u1 - u2) (u1 * u2 - 1)) as [Z|Z]; [rewrite <- K; ring|now apply D, sub_0|contradiction]. }
      assert (KB : B = (u1 - u2) * (u1 * u2 - 1) / (u1 * u2 * (s1 * s1 - s2 * s2))) by (rewrite <- K; field; auto).
      assert (D4 : u2 - u1 <> 0) by (apply sub_nz; congruence). assert (D5 : u1 - u2 <> 0) by (apply sub_nz; congruence).
      rewrite M1, M2 in *.
      rewrite (chord_M _ _ _ _ _ _ _ _ FT dec three_nz a B B_nz u1 (u1 * s1) u2 (u2 * s2) ((u2 * s2 - u1 * s1) / (u2 - u1))) in G |- *; try exact D; try (field; auto).
      eapply finish; [exact H3|exact G|exact HP|exact HM|exact EX|exact EY| |].
      * pose proof (chord_u u1 s1 u2 s2 U1 S1 V1 U2 S2 V2 D4 D5 D' D3) as T. cbv zeta in T. rewrite <- KB, <- A1, <- X1, <- Y1, <- X2, <- Y2 in T. unfold cd, ce. rewrite <- T. ring.
      * pose proof (chord_v u1 s1 u2 s2 U1 S1 V1 U2 S2 V2 D4 D5 D' D3) as T. cbv zeta in T. rewrite <- KB, <- A1, <- X1, <- Y1, <- X2, <- Y2 in T. unfold cd, ce. rewrite T. ring.
Qed.
Lemma EM_inj x y x' y' : on_ed x y -> on_ed x' y' -> EM x y = EM x' y' -> x = x' /\ y = y'.
Proof.
  assert (K : forall x y, on_ed x y -> x <> 0 -> EM x y <> EM 0 1 /\ EM x y <> EM 0 (fopp 1)).
  { intros u v H N. destruct (us_facts u v H N) as (U & _ & _ & _ & _ & _ & ->). cbv zeta in U. rewrite EM_O, EM_T. split; [discriminate|].
    intros E. apply (M_inj _ _ _ _ _ _ _ _ FT three_nz a B B_nz) in E as (E & _). contradiction. }
  assert (K0 : EM 0 1 <> EM 0 (fopp 1)) by (rewrite EM_O, EM_T; discriminate).
  intros H H' E. destruct (dec x 0) as [->|N], (dec x' 0) as [->|N'].
  - split; [reflexivity|]. destruct (ed_x0 y H) as [->| ->], (ed_x0 y' H') as [->| ->]; congruence.
  - exfalso. destruct (K x' y' H' N'). destruct (ed_x0 y H) as [->| ->]; congruence.
  - exfalso. destruct (K x y H N). destruct (ed_x0 y' H') as [->| ->]; congruence.
  - destruct (us_facts x y H N) as (U & S & _ & X & Y & _ & EM1). destruct (us_facts x' y' H' N') as (U' & S' & _ & X' & Y' & _ & EM2). cbv zeta in *. rewrite EM1, EM2 in E.
    apply (M_inj _ _ _ _ _ _ _ _ FT three_nz a B B_nz) in E as (E1 & E2). split.
    + rewrite X, X'. f_equal. rewrite <- E1 in E2. transitivity (cu y * (1 / x) / cu y); [field; auto|]. rewrite E2. field. auto.
    + rewrite Y, Y', E1. reflexivity.
Qed.
End E.

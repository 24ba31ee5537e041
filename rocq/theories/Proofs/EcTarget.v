(** Checking by evaluation that k P = T on a curve modulo a prime. *)
From Coq Require Import ZArith List Bool Lia Znumtheory Field.
From Verif Require Import Proofs.Cong Proofs.Fp Proofs.ECGroup Proofs.Curve Proofs.Jacobian Spec.CurveSpec Proofs.Limbs Proofs.ModRep Proofs.EcCheck.
Import ListNotations.
Local Open Scope Z_scope.

Section Div.
Context (p : Z) (Hp : prime p).
Let FT := fp_field p Hp.
Add Field Fpfield7 : FT.
Lemma div2 t w : w <> fi p 0 -> fdiv p (fmul p t (fmul p w w)) (fmul p w w) = t.
Proof. intros N. field. exact N. Qed.
Lemma div3 t w : w <> fi p 0 -> fdiv p (fmul p t (fmul p w (fmul p w w))) (fmul p (fmul p w w) w) = t.
Proof. intros N. field. exact N. Qed.
End Div.
(** [e_k] limbs, modulus, coefficient, point, the signed digits of k, an inverse of the last Z, the target; e_b, e_wd, e_w3 are not used *)
Definition ec_to (j : ecjob) (tx ty : Z) : bool :=
  let k := e_k j in
  modulus_ok k (e_n j) (e_r2 j) && inrange (e_n j) (e_a j) && inrange (e_n j) (e_x j) && inrange (e_n j) (e_y j) && inrange (e_n j) tx && inrange (e_n j) ty &&
  let M := make' k (e_n j) (e_r2 j) in
  let one := m_one M in let a := conv M k (e_a j) in let x := conv M k (e_x j) in let y := conv M k (e_y j) in
  let am := if e_a j =? e_n j - 3 then None else Some a in
  let '(X, Y, Z) := fold_left (lstep M am x y (sub M (m_zs M) y)) (e_ds j) (x, y, one) in
  let ZZ := mul M Z Z in
  unitb M k Z (e_wz j) && eqm M (mul M X one) (mul M (conv M k tx) ZZ) && eqm M (mul M Y one) (mul M (conv M k ty) (mul M Z ZZ)).

Lemma ec_to_ok j tx ty b : let p := e_n j in prime p -> 3 < p -> nonsingular p (e_a j) b -> gon p (e_a j) b (ECGroup.P (fi p (e_x j)) (fi p (e_y j))) -> ec_to j tx ty = true ->
  0 <= tx < p /\ 0 <= ty < p /\ zmul p (e_a j) (digits_val (e_ds j)) (ECGroup.P (fi p (e_x j)) (fi p (e_y j))) = ECGroup.P (fi p tx) (fi p ty).
Proof.
  cbv zeta. intros Hq Q3 NS G H. unfold ec_to in H. cbv zeta in H. set (z := e_n j) in *. set (a := e_a j) in *. set (x := e_x j) in *. set (y := e_y j) in *. assert (Dq : (z | z)) by apply Z.divide_refl.
  destruct (e_k j) as [|k]; [unfold modulus_ok in H; cbv zeta in H; rewrite !andb_false_r in H; discriminate|].
  set (M := make' (S k) z (e_r2 j)) in *. rewrite !andb_true_iff in H. destruct H as ((((((OK & Ra) & Rx) & Ry) & Rt) & Ru) & H).
  apply inrange_ok in Ra, Rx, Ry, Rt, Ru. split; [exact Rt|]. split; [exact Ru|].
  destruct (fold_left _ _ _) as [[X Y] Z] eqn:EF. rewrite !andb_true_iff in H. destruct H as ((UZ & EX) & EY).
  destruct (ok_parts k z (e_r2 j) OK) as (Hz & _ & HzR & _).
  Local Ltac rm k z r2 OK q Hq Dq M H1 H2 H := pose proof (rep_mul k z r2 OK q Hq Dq _ _ _ _ _ _ H1 H2 ltac:(lia) ltac:(lia) ltac:(lia)) as H; fold M in H.
  assert (CV : forall u, 0 <= u < z -> rep k z z 3 (conv M (S k) u) u) by (intros u Hu; apply (rep_conv k z (e_r2 j) OK z Hq Dq); lia).
  pose proof (CV a Ra) as Ha. pose proof (CV x Rx) as Hx. pose proof (CV y Ry) as Hy. pose proof (CV tx Rt) as Ht. pose proof (CV ty Ru) as Hu.
  pose proof (rep_one k z (e_r2 j) OK z Hq Dq) as H1. fold M in H1.
  set (al := conv M (S k) a) in *. set (xl := conv M (S k) x) in *. set (yl := conv M (S k) y) in *. set (tl := conv M (S k) tx) in *. set (ul := conv M (S k) ty) in *. clearbody al xl yl tl ul.
  pose proof (rep_zero k z (e_r2 j) OK z) as H0. fold M in H0.
  pose proof (rep_sub k z (e_r2 j) OK z Hq Dq _ _ _ _ _ _ H0 Hy ltac:(lia) ltac:(lia)) as Hny. fold M in Hny.
  set (am := if a =? z - 3 then None else Some al) in *.
  assert (Ham : match am with None => cong z a (-3) | Some l => rep k z z 3 l a end).
  { unfold am. destruct (Z.eqb_spec a (z - 3)) as [E|_]; [|exact Ha]. split. rewrite E. replace (z - 3) with (-3 + 1 * z) by ring. apply Z.mod_add. lia. }
  assert (HJ : jl k z z (X, Y, Z) (zmult a x y (e_ds j))).
  { rewrite <- EF. apply (lsteps_ok k z (e_r2 j) OK z Hq Dq a am Ham xl yl _ x y).
    - exact Hx.
    - apply (rep_le k z (e_r2 j) OK z _ _ _ _ Hy). lia.
    - apply (rep_le k z (e_r2 j) OK z _ _ _ _ Hny). lia.
    - split; [|split]; [apply (rep_le k z (e_r2 j) OK z _ _ _ _ Hx); lia|apply (rep_le k z (e_r2 j) OK z _ _ _ _ Hy); lia|apply (rep_le k z (e_r2 j) OK z _ _ _ _ H1); lia]. }
  destruct (zmult a x y (e_ds j)) as [[u v] w] eqn:EZ. destruct HJ as (HX & HY & HZ).
  apply (unit_witness k z (e_r2 j) OK z Hq Dq _ _ _ _ HZ) in UZ; try lia.
  rm k z (e_r2 j) OK z Hq Dq M HX H1 HX1. rm k z (e_r2 j) OK z Hq Dq M HZ HZ HZZ. rm k z (e_r2 j) OK z Hq Dq M Ht HZZ HxZ.
  pose proof (rep_eqm k z (e_r2 j) OK z Hq Dq _ _ _ _ _ _ HX1 HxZ ltac:(lia) ltac:(lia) EX) as CX.
  rm k z (e_r2 j) OK z Hq Dq M HY H1 HY1. rm k z (e_r2 j) OK z Hq Dq M HZ HZZ HZ3. rm k z (e_r2 j) OK z Hq Dq M Hu HZ3 HyZ.
  pose proof (rep_eqm k z (e_r2 j) OK z Hq Dq _ _ _ _ _ _ HY1 HyZ ltac:(lia) ltac:(lia) EY) as CY.
  assert (NZ : fi z w <> fi z 0) by (apply fi_nz; assumption).
  destruct (zmult_ok z Hq Q3 a b NS x y G (e_ds j) u v w EZ NZ) as [_ E2]. rewrite E2.
  assert (E3 : fi z u = fi z (tx * (w * w))) by (apply fi_eq; rewrite <- CX; apply cong_refl_eq; ring).
  assert (E4 : fi z v = fi z (ty * (w * (w * w)))) by (apply fi_eq; rewrite <- CY; apply cong_refl_eq; ring).
  rewrite E3, E4, !fi_mul. f_equal; [apply (div2 z Hq)|apply (div3 z Hq)]; exact NZ.
Qed.

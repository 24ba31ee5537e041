(** Associativity of the Edwards sum, and key agreement with the Montgomery ladder. *)
From Coq Require Import Znumtheory Setoid Lia List.
From Verif Require Import Proofs.Tac Proofs.Cong Proofs.Primality Proofs.NTBasic Proofs.Fp Proofs.ECGroup Proofs.Curve Proofs.Montgomery Proofs.Ladder Proofs.CurveFacts Proofs.MontFacts Proofs.EdOrder.
From Verif Require Import Model.Py Model.NumberTheory Model.Ecc Spec.CurveSpec Spec.MontgomerySpec Spec.EdwardsSpec.
Import ListNotations.
Local Open Scope Z_scope.

Lemma c88_assoc : forall p a d x1 y1 x2 y2 x3 y3 x12 y12 x23 y23 xl yl xr yr, prime p -> 3 < p -> (a * d) mod p <> 0 -> (a - d) mod p <> 0 ->
  on_edwards p a d x1 y1 -> on_edwards p a d x2 y2 -> on_edwards p a d x3 y3 ->
  ed_defined p d x1 y1 x2 y2 -> ed_sum p a d x1 y1 x2 y2 x12 y12 -> ed_defined p d x12 y12 x3 y3 -> ed_sum p a d x12 y12 x3 y3 xl yl ->
  ed_defined p d x2 y2 x3 y3 -> ed_sum p a d x2 y2 x3 y3 x23 y23 -> ed_defined p d x1 y1 x23 y23 -> ed_sum p a d x1 y1 x23 y23 xr yr ->
  xl = xr /\ yl = yr.
Proof.
  intros p a d x1 y1 x2 y2 x3 y3 x12 y12 x23 y23 xl yl xr yr Hp p3 ND NED.
  destruct (inv_ex p Hp (a - d) NED 4) as (b & EB). destruct (inv_ex p Hp (a - d) NED (2 * (a + d))) as (m & EA).
  exact (ed_assoc p Hp p3 a d ND NED m b EB EA x1 y1 x2 y2 x3 y3 x12 y12 x23 y23 xl yl xr yr).
Qed.

Section Agree.
Context (p : Z) (Hp : prime p) (p3 : 3 < p) (a : Z) (NA : (a * a - 4) mod p <> 0).
Local Notation r k := (Z.to_nat (k mod 2 ^ 255)).
Lemma compose B x y k m S : B mod p <> 0 -> on_mg p a B (Some (x mod p, y)) -> mg_multiple p a B (Some (x mod p, y)) (r k * r m) S -> montgomery_ladder p a k (montgomery_ladder p a m x) = x_coord S.
Proof.
  intros NB OP MS. assert (GA := hm_on p Hp p3 a B NB _ OP).
  destruct (mg_multiple_hm p Hp p3 a B NB _ _ _ OP MS) as (OS & ES). rewrite (nmul_mul p Hp p3 _ _ (wns p Hp p3 a B NB NA)) in ES by exact GA.
  destruct (mg_multiple_ex p Hp p3 a B NB _ (r m) OP) as (R & MR). destruct (mg_multiple_hm p Hp p3 a B NB _ _ _ OP MR) as (OR & ER).
  rewrite (ladder_ok p Hp p3 a B NB NA x y m R OP MR). rewrite <- ER in ES. destruct R as [[x' y']|].
  - cbn [x_coord]. destruct (mg_multiple_ex p Hp p3 a B NB _ (r k) OR) as (T & MT). destruct (mg_multiple_hm p Hp p3 a B NB _ _ _ OR MT) as (OT & ET).
    assert (E : x' mod p = x') by (apply Z.mod_small, OR). rewrite (ladder_ok p Hp p3 a B NB NA x' y' k T); [|now rewrite E..]. f_equal. apply (hm_inj p Hp p3 a B NB); congruence.
  - cbn [x_coord]. rewrite (ladder_zero p p3 a B 0 k) by (apply Z.mod_0_l; lia).
    assert (N : forall n, nmul p (wA p a B) n (hm p a B None) = hm p a B None) by (induction n as [|n IH]; [reflexivity|cbn [nmul]; now rewrite IH]).
    rewrite N in ES. destruct S as [[u v]|]; [discriminate ES|reflexivity].
Qed.
Lemma agree x k m : montgomery_ladder p a k (montgomery_ladder p a m x) = montgomery_ladder p a m (montgomery_ladder p a k x).
Proof.
  destruct (c70_every_x p a x Hp) as (B & y & NB & OP). destruct (mg_multiple_ex p Hp p3 a B NB _ (r k * r m) OP) as (S & MS).
  rewrite (compose B x y k m S NB OP MS). rewrite Nat.mul_comm in MS. now rewrite (compose B x y m k S NB OP MS).
Qed.
End Agree.
Lemma c70_compose : forall p a B x y k m S, prime p -> 3 < p -> (a * a - 4) mod p <> 0 -> B mod p <> 0 -> on_mg p a B (Some (x mod p, y)) ->
  mg_multiple p a B (Some (x mod p, y)) (Z.to_nat (k mod 2 ^ 255) * Z.to_nat (m mod 2 ^ 255)) S -> montgomery_ladder p a k (montgomery_ladder p a m x) = x_coord S.
Proof. intros p a B x y k m S Hp p3 NA NB. exact (compose p Hp p3 a NA B x y k m S NB). Qed.
Lemma c70_key_agreement : forall p a x k m, prime p -> 3 < p -> (a * a - 4) mod p <> 0 ->
  montgomery_ladder p a k (montgomery_ladder p a m x) = montgomery_ladder p a m (montgomery_ladder p a k x).
Proof. intros p a x k m Hp p3 NA. exact (agree p Hp p3 a NA x k m). Qed.

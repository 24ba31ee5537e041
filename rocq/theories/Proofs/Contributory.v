(** The ladder as a key agreement function: inputs of small order, and which private keys give the same public key (C98) *)
From Coq Require Import Znumtheory Setoid Lia List.
From Verif Require Import Proofs.Tac Proofs.Cong Proofs.Primality Proofs.NTBasic Proofs.Fp Proofs.ECGroup Proofs.Curve Proofs.Montgomery Proofs.Ladder.
From Verif Require Import Model.Py Model.NumberTheory Model.Ecc Spec.CurveSpec Spec.MontgomerySpec.
Import ListNotations.
Local Open Scope Z_scope.

Section Mg.
Context (p : Z) (Hp : prime p) (p3 : 3 < p) (a B : Z) (NB : B mod p <> 0) (NA : (a * a - 4) mod p <> 0).
Context (x y : Z) (OP : on_mg p a B (Some (x mod p, y))).
Local Notation PP := (Some (x mod p, y)).
Local Notation A := (hm p a B PP).
Local Notation zm := (zmul p (wA p a B)).
Local Notation WN := (wns p Hp p3 a B NB NA).
Lemma gonA : gon p (wA p a B) (wB p a B) A.
Proof. exact (hm_on p Hp p3 a B NB _ OP). Qed.
Lemma mult_zm k R : 0 <= k -> mg_multiple p a B PP (Z.to_nat k) R -> on_mg p a B R /\ hm p a B R = zm k A.
Proof. intros K M. rewrite (zmul_nat p (wA p a B)) by exact K. exact (mg_multiple_hm p Hp p3 a B NB _ _ _ OP M). Qed.
Lemma hm_none R : hm p a B R = hm p a B None -> R = None.
Proof. destruct R as [[u v]|]; [discriminate|reflexivity]. Qed.
Lemma zm_mult k : 0 <= k -> zm k A = hm p a B None -> mg_multiple p a B PP (Z.to_nat k) None.
Proof.
  intros K E. destruct (mg_multiple_ex p Hp p3 a B NB _ (Z.to_nat k) OP) as (R & M). destruct (mult_zm k R K M) as (_ & ER).
  rewrite E in ER. apply hm_none in ER. now subst R.
Qed.
(** small order *)
Lemma small h k : 0 <= h -> mg_multiple p a B PP (Z.to_nat h) None -> (h | k mod 2 ^ 255) -> montgomery_ladder p a k x = 0.
Proof.
  intros H M (m & E). assert (K : 0 <= k mod 2 ^ 255) by (apply Z.mod_pos_bound; reflexivity).
  destruct (mg_multiple_ex p Hp p3 a B NB _ (Z.to_nat (k mod 2 ^ 255)) OP) as (R & MR).
  rewrite (ladder_ok p Hp p3 a B NB NA x y k R OP MR). destruct (mult_zm _ R K MR) as (_ & ER). destruct (mult_zm h None H M) as (_ & EH).
  rewrite E, (zmul_mul p Hp p3 (wA p a B) (wB p a B) WN m h A gonA), <- EH in ER.
  change (hm p a B None) with (@O (Fp p)) in ER. rewrite zmul_O in ER. now rewrite (hm_none R ER).
Qed.
(** a point of odd order *)
Context (n : Z) (OD : n mod 2 = 1) (ON : mg_order p a B PP n).
Lemma zero_iff k : zm k A = hm p a B None <-> (n | k).
Proof.
  destruct ON as (N1 & M & L). destruct (mult_zm n None ltac:(lia) M) as (_ & E). symmetry in E.
  assert (R : zm (k mod n) A = zm k A) by (apply (zmul_mod p Hp p3 (wA p a B) (wB p a B) WN n k A gonA); [lia|exact E]).
  split.
  - intros Z0. apply Z.mod_divide; [lia|]. destruct (Z.eq_dec (k mod n) 0) as [|NZ]; [assumption|]. exfalso.
    pose proof (Z.mod_pos_bound k n ltac:(lia)). apply (L (k mod n)); [lia|]. apply zm_mult; [lia|]. congruence.
  - intros D. apply Z.mod_divide in D; [|lia]. rewrite <- R, D. reflexivity.
Qed.
Lemma half k : (n | 2 * k) -> (n | k).
Proof.
  intros D. apply Gauss with 2; [exact D|]. apply rel_prime_sym. apply prime_rel_prime; [exact prime_2|]. intros (q & Q). rewrite Q in OD. rewrite Z.mod_mul in OD; lia.
Qed.
(** no multiple other than infinity has abscissa 0 *)
Lemma nonzero k R : 0 <= k -> mg_multiple p a B PP (Z.to_nat k) R -> x_coord R = 0 -> R = None.
Proof.
  intros K M X. destruct R as [[u v]|]; [|reflexivity]. exfalso. cbn in X. subst u. destruct (mult_zm k _ K M) as (OR & ER).
  assert (V : v = 0).
  { destruct OR as (_ & Y & C). replace (B * v * v - (0 * 0 * 0 + a * 0 * 0 + 0)) with (B * v * v) in C by ring. apply Z.mod_divide in C; [|lia].
    assert (D : (p | v)). { apply prime_mult in C; [|exact Hp]. destruct C as [C|C]; [|exact C]. apply prime_mult in C; [|exact Hp]. destruct C as [C|C]; [|exact C]. exfalso. apply NB. apply Z.mod_divide; [lia|exact C]. }
    destruct (Z.eq_dec v 0) as [|N]; [assumption|]. apply Z.divide_pos_le in D; lia. }
  subst v.
  assert (T : mg_sum p a B (Some (0, 0)) (Some (0, 0)) None).
  { replace (Some (0, 0)) with (ec_neg p (Some (0, 0))) at 2; [apply mgs_opposite|]. unfold ec_neg. now rewrite Z.mod_0_l by lia. }
  destruct (mg_sum_hm p Hp p3 a B NB _ _ _ OR OR T) as (_ & S). rewrite ER in S.
  rewrite <- (zmul_add p Hp p3 (wA p a B) (wB p a B) WN k k A gonA) in S. replace (k + k) with (2 * k) in S by lia.
  apply zero_iff in S. apply half in S. apply zero_iff in S. rewrite S in ER. discriminate ER.
Qed.
Lemma square_roots v w : 0 <= v < p -> 0 <= w < p -> (B * v * v - B * w * w) mod p = 0 -> w = v \/ w = (- v) mod p.
Proof.
  intros V W E. apply Z.mod_divide in E; [|lia]. replace (B * v * v - B * w * w) with (B * ((v - w) * (v + w))) in E by ring.
  apply prime_mult in E; [|exact Hp]. destruct E as [E|E]; [exfalso; apply NB; apply Z.mod_divide; [lia|exact E]|].
  apply prime_mult in E; [|exact Hp]. destruct E as [(q & E)|(q & E)].
  - left. assert (q = 0) by nia. subst q. lia.
  - right. assert (q = 0 \/ q = 1) as [-> | ->] by nia.
    + assert (v = 0) by lia. assert (w = 0) by lia. subst. rewrite Z.mod_0_l; lia.
    + apply Zmod_unique with (-1); lia.
Qed.
Lemma collision k m R S : 0 <= k -> 0 <= m -> mg_multiple p a B PP (Z.to_nat k) R -> mg_multiple p a B PP (Z.to_nat m) S ->
  (x_coord R = x_coord S <-> (n | k - m) \/ (n | k + m)).
Proof.
  intros K M MR MS. destruct (mult_zm k R K MR) as (OR & ER). destruct (mult_zm m S M MS) as (OS & ES).
  assert (ZA := fun u v => zmul_add p Hp p3 (wA p a B) (wB p a B) WN u v A gonA).
  assert (ZO : zm (- m) A = gopp p (zm m A)) by exact (zmul_opp p Hp p3 (wA p a B) (wB p a B) m A gonA).
  split.
  - intros X. destruct R as [[u v]|], S as [[u' w]|]; cbn [x_coord] in X.
    + subst u'. destruct OR as (U & V & C), OS as (_ & W & C').
      assert (Q : (B * v * v - B * w * w) mod p = 0).
      { apply Z.mod_divide in C, C'; try lia. apply Z.mod_divide; [lia|]. replace (B * v * v - B * w * w) with ((B * v * v - (u * u * u + a * u * u + u)) - (B * w * w - (u * u * u + a * u * u + u))) by ring. now apply Z.divide_sub_r. }
      destruct (square_roots v w V W Q) as [-> | ->].
      * left. apply zero_iff. replace (k - m) with (k + - m) by lia. rewrite ZA, ZO, <- ER, <- ES. apply gadd_opp. exact Hp.
      * right. apply zero_iff. rewrite ZA, <- ER, <- ES. change (Some (u, (- v) mod p)) with (ec_neg p (Some (u, v))). rewrite (hm_neg p Hp a B NB). apply gadd_opp. exact Hp.
    + assert (E := nonzero k _ K MR X). discriminate E.
    + assert (E := nonzero m _ M MS (eq_sym X)). discriminate E.
    + left. symmetry in ER, ES. apply zero_iff in ER, ES. now apply Z.divide_sub_r.
  - intros [D|D]; apply zero_iff in D.
    + f_equal. apply (hm_inj p Hp p3 a B NB); auto. rewrite ER, ES. replace k with ((k - m) + m) by lia. rewrite ZA, D. reflexivity.
    + rewrite ZA, <- ER, <- ES in D.
      apply (zero_opp p Hp p3 (wA p a B) (wB p a B) WN) in D; [|exact (hm_on p Hp p3 a B NB _ OR)|exact (hm_on p Hp p3 a B NB _ OS)].
      rewrite <- (hm_neg p Hp a B NB) in D.
      assert (ON' : on_mg p a B (ec_neg p R)).
      { destruct R as [[u v]|]; [|exact I]. destruct OR as (U & V & C). cbn. split; [exact U|]. split; [apply Z.mod_pos_bound; lia|].
        rewrite <- C. apply uncong. cmod. apply cong_refl_eq. ring. }
      apply (hm_inj p Hp p3 a B NB) in D; auto. rewrite D. now destruct R as [[u v]|].
Qed.
End Mg.

Lemma c98_zero : forall p a x k, 3 < p -> x mod p = 0 -> montgomery_ladder p a k x = 0.
Proof. intros p a x k P X. now apply (ladder_zero p P a 1). Qed.
Lemma c98_small : forall p a B x y h k, prime p -> 3 < p -> (a * a - 4) mod p <> 0 -> B mod p <> 0 -> on_mg p a B (Some (x mod p, y)) ->
  0 <= h -> mg_multiple p a B (Some (x mod p, y)) (Z.to_nat h) None -> (h | k mod 2 ^ 255) -> montgomery_ladder p a k x = 0.
Proof. intros p a B x y h k Hp p3 NA NB OP. exact (small p Hp p3 a B NB NA x y OP h k). Qed.
Lemma c98_collision : forall p a B x y n k m, prime p -> 3 < p -> (a * a - 4) mod p <> 0 -> B mod p <> 0 -> on_mg p a B (Some (x mod p, y)) ->
  n mod 2 = 1 -> mg_order p a B (Some (x mod p, y)) n ->
  (montgomery_ladder p a k x = montgomery_ladder p a m x <-> (n | k mod 2 ^ 255 - m mod 2 ^ 255) \/ (n | k mod 2 ^ 255 + m mod 2 ^ 255)).
Proof.
  intros p a B x y n k m Hp p3 NA NB OP OD ON.
  assert (K : 0 <= k mod 2 ^ 255) by (apply Z.mod_pos_bound; reflexivity). assert (M : 0 <= m mod 2 ^ 255) by (apply Z.mod_pos_bound; reflexivity).
  destruct (mg_multiple_ex p Hp p3 a B NB _ (Z.to_nat (k mod 2 ^ 255)) OP) as (R & MR). destruct (mg_multiple_ex p Hp p3 a B NB _ (Z.to_nat (m mod 2 ^ 255)) OP) as (S & MS).
  rewrite (ladder_ok p Hp p3 a B NB NA x y k R OP MR), (ladder_ok p Hp p3 a B NB NA x y m S OP MS).
  exact (collision p Hp p3 a B NB NA x y OP n OD ON _ _ R S K M MR MS).
Qed.

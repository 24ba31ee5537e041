(** The group of a curve modulo a prime: the relational definition, the abstract group and the
    program agree. *)
From Coq Require Import Znumtheory Field Setoid Lia.
From Verif Require Import Proofs.Tac Proofs.Cong Proofs.Primality Proofs.NTBasic Proofs.Fp Proofs.ECGroup.
From Verif Require Import Model.Py Model.NumberTheory Model.Ecc Spec.CurveSpec Spec.CurveView.
Local Open Scope Z_scope.

Section Curve.
Context (p : Z) (Hp : prime p) (p3 : 3 < p) (a b : Z).
Local Notation F := (Fp p).
Local Notation i := (fi p).
Definition gadd : pt (F := F) -> pt -> pt := add (i 0) (i 1) (fadd p) (fmul p) (fsub p) (fdiv p) (fp_dec p) (i a).
Definition gopp : pt (F := F) -> pt := opp (fopp p).
Definition gon : pt (F := F) -> Prop := on (fadd p) (fmul p) (i a) (i b).
Infix "++" := gadd.
Local Notation Pt := ECGroup.P.
Let FT := fp_field p Hp.
Add Field Fpfield : FT.

Lemma pp : 0 < p. Proof. lia. Qed.
Lemma two_nz : fadd p (i 1) (i 1) <> i 0.
Proof. rewrite <- fi_add. intros E. apply fi_0 in E; [|exact Hp]. change (1 + 1) with 2 in E. rewrite Z.mod_small in E; lia. Qed.
Lemma i2 : i 2 = fadd p (i 1) (i 1). Proof. rewrite <- fi_add. reflexivity. Qed.
Lemma i3 : i 3 = fadd p (fadd p (i 1) (i 1)) (i 1). Proof. rewrite <- !fi_add. reflexivity. Qed.
Ltac fpush := repeat rewrite ?fi_add, ?fi_sub, ?fi_mul, ?fi_opp, ?i2, ?i3.
Lemma fi_mod x : i (x mod p) = i x. Proof. apply fi_eq. now cmod. Qed.
Lemma fi_nz x : x mod p <> 0 -> i x <> i 0. Proof. intros N E. apply N. now apply fi_0 in E. Qed.
Lemma fi_inj x y : 0 <= x < p -> 0 <= y < p -> i x = i y -> x = y.
Proof. intros A B E. apply fi_eq in E. now apply (cong_eq p). Qed.
Lemma fi_diff x y : (x - y) mod p = 0 <-> i x = i y.
Proof. rewrite <- fi_0 by exact Hp. rewrite fi_sub. split; intros E.
  - transitivity (fadd p (fsub p (i x) (i y)) (i y)); [ring|]. rewrite E. ring.
  - rewrite E. ring.
Qed.

(** ** the abstract group *)
Definition h (P : ecpoint) : pt (F := F) := match P with None => O | Some (x, y) => Pt (i x) (i y) end.
Lemma h_on P : on_ec p a b P -> gon (h P).
Proof. destruct P as [[x y]|]; [|constructor]. intros (_ & _ & E). apply fi_diff in E. cbn. revert E. fpush. auto. Qed.
Lemma h_inj P Q : on_ec p a b P -> on_ec p a b Q -> h P = h Q -> P = Q.
Proof.
  destruct P as [[x y]|], Q as [[x' y']|]; cbn; try (intros; congruence). intros (A & B & _) (A' & B' & _) E. assert (E1 : i x = i x') by congruence. assert (E2 : i y = i y') by congruence.
  apply fi_inj in E1, E2; congruence.
Qed.
Lemma h_surj A : gon A -> exists P, on_ec p a b P /\ h P = A.
Proof.
  destruct A as [|x y]; [exists None; now split|]. intros E. exists (Some (fv p x, fv p y)). cbn. split; [|now rewrite !fi_fv].
  split; [now apply fv_range|]. split; [now apply fv_range|]. apply fi_diff. fpush. rewrite !fi_fv. exact E.
Qed.
Lemma neg_on P : on_ec p a b P -> on_ec p a b (ec_neg p P).
Proof.
  destruct P as [[x y]|]; [|auto]. intros (A & B & E). cbn. split; [exact A|]. split; [apply Z.mod_pos_bound; lia|].
  apply fi_diff. fpush. rewrite fi_mod. apply fi_diff in E. revert E. fpush. intros <-. ring.
Qed.
Lemma h_neg P : h (ec_neg p P) = gopp (h P).
Proof. destruct P as [[x y]|]; [|reflexivity]. cbn. rewrite fi_mod, fi_opp. reflexivity. Qed.
Lemma gon_add A B : gon A -> gon B -> gon (A ++ B).
Proof. apply (on_add _ _ _ _ _ _ _ _ FT); try exact two_nz. Qed.
Lemma gon_opp A : gon A -> gon (gopp A).
Proof. apply (on_opp _ _ _ _ _ _ _ _ FT). Qed.
Lemma gadd_comm A B : gon A -> gon B -> A ++ B = B ++ A.
Proof. apply (add_comm _ _ _ _ _ _ _ _ FT). exact two_nz. Qed.
Lemma gadd_opp A : A ++ gopp A = O.
Proof. apply (add_opp _ _ _ _ _ _ _ _ FT). Qed.
Lemma gopp_opp A : gopp (gopp A) = A.
Proof. apply (opp_opp _ _ _ _ _ _ _ _ FT). Qed.
Lemma gadd_O_r A : A ++ O = A. Proof. now destruct A. Qed.
Lemma gadd_O_l A : O ++ A = A. Proof. reflexivity. Qed.

(** the line of slope l through two points *)
Lemma sum_line l x1 y1 x2 y2 : gon (Pt x1 y1) -> gon (Pt x2 y2) ->
  (x1 <> x2 /\ fmul p l (fsub p x2 x1) = fsub p y2 y1) \/ (x1 = x2 /\ y1 = y2 /\ y1 <> i 0 /\ fmul p l (fmul p (i 2) y1) = fadd p (fmul p (fmul p (i 3) x1) x1) (i a)) ->
  Pt x1 y1 ++ Pt x2 y2 = Pt (fsub p (fsub p (fmul p l l) x1) x2) (fsub p (fmul p l (fsub p x1 (fsub p (fsub p (fmul p l l) x1) x2))) y1).
Proof.
  intros A B [(N & L)|(<- & <- & N & L)]; cbn.
  - destruct (fp_dec p x1 x2) as [E|_]; [contradiction|]. assert (D : fsub p x2 x1 <> i 0).
    { intros E. apply N. transitivity (fsub p x2 (fsub p x2 x1)); [ring|]. rewrite E. ring. }
    replace (fdiv p (fsub p y2 y1) (fsub p x2 x1)) with l; [reflexivity|]. rewrite <- L. field. exact D.
  - destruct (fp_dec p x1 x1) as [_|E]; [|congruence]. assert (T := two_nz).
    assert (D : fmul p (fadd p (i 1) (i 1)) y1 <> i 0).
    { intros E. apply N. transitivity (fdiv p (fmul p (fadd p (i 1) (i 1)) y1) (fadd p (i 1) (i 1))); [field; exact T|]. rewrite E. field. exact T. }
    destruct (fp_dec p (fadd p y1 y1) (i 0)) as [E|_]; [exfalso; apply D; rewrite <- E; ring|].
    rewrite i2, i3 in L. match goal with |- line _ _ ?m _ _ _ = _ => replace m with l; [reflexivity|] end.
    rewrite <- L. field. split; assumption.
Qed.
Lemma third_on l x1 y1 x2 x3 y3 : third_point p l x1 y1 x2 x3 y3 ->
  Pt (i x3) (i y3) = Pt (fsub p (fsub p (fmul p (i l) (i l)) (i x1)) (i x2)) (fsub p (fmul p (i l) (fsub p (i x1) (fsub p (fsub p (fmul p (i l) (i l)) (i x1)) (i x2)))) (i y1)).
Proof.
  intros (_ & _ & E1 & E2). apply fi_diff in E1, E2. revert E1 E2. fpush. intros E1 E2. rewrite E1 in E2. now rewrite E1, E2.
Qed.
Theorem sum_h P Q R : on_ec p a b P -> on_ec p a b Q -> ec_sum p a P Q R -> on_ec p a b R /\ h P ++ h Q = h R.
Proof.
  intros OP OQ S.
  assert (K : h P ++ h Q = h R /\ match R with None => True | Some (x, y) => 0 <= x < p /\ 0 <= y < p end).
  { assert (HP := h_on P OP). assert (HQ := h_on Q OQ). destruct S as [Q|P|P|x1 y1 x2 y2 l x3 y3 N L T|x y l x3 y3 N L T].
    - split; [reflexivity|]. destruct Q as [[x y]|]; [|auto]. destruct OQ as (A & B & _). auto.
    - split; [apply gadd_O_r|]. destruct P as [[x y]|]; [|auto]. destruct OP as (A & B & _). auto.
    - split; [|exact I]. rewrite h_neg. apply gadd_opp.
    - split; [|destruct T as (A & B & _); auto]. cbn [h]. rewrite (third_on _ _ _ _ _ _ T). apply sum_line; [exact HP|exact HQ|]. left.
      destruct OP as (A & _), OQ as (A' & _). split; [intros E; apply N; now apply fi_inj|]. apply fi_diff in L. revert L. fpush. auto.
    - split; [|destruct T as (A & B & _); auto]. cbn [h]. rewrite (third_on _ _ _ _ _ _ T). apply sum_line; [exact HP|exact HQ|]. right.
      destruct OP as (A & A' & _). split; [reflexivity|]. split; [reflexivity|]. split; [intros E; apply N; apply fi_inj; auto; lia|]. apply fi_diff in L. revert L. fpush. auto. }
  destruct K as (K & B). split; [|exact K]. destruct R as [[x y]|]; [|exact I]. destruct B as (B & B'). split; [exact B|]. split; [exact B'|].
  assert (W := gon_add _ _ (h_on P OP) (h_on Q OQ)). rewrite K in W. cbn in W. apply fi_diff. fpush. exact W.
Qed.
Lemma third_ex l x1 y1 x2 : exists x3 y3, third_point p l x1 y1 x2 x3 y3.
Proof.
  exists ((l * l - x1 - x2) mod p), ((l * (x1 - (l * l - x1 - x2) mod p) - y1) mod p). split; [apply Z.mod_pos_bound; lia|].
  split; [apply Z.mod_pos_bound; lia|]. split; apply fi_diff; now rewrite fi_mod.
Qed.
Lemma inv_ex x : x mod p <> 0 -> forall y, exists l, (l * x - y) mod p = 0.
Proof.
  intros N y. apply fi_nz in N. exists (fv p (fdiv p (i y) (i x))). apply fi_diff. fpush. rewrite fi_fv. field. exact N.
Qed.
Lemma diff_nz x y : 0 <= x < p -> 0 <= y < p -> x <> y -> (y - x) mod p <> 0.
Proof. intros A B N E. apply fi_diff in E. apply N. symmetry. now apply fi_inj. Qed.
Theorem sum_ex P Q : on_ec p a b P -> on_ec p a b Q -> exists R, ec_sum p a P Q R.
Proof.
  intros OP OQ. destruct P as [[x1 y1]|]; [|eexists; apply sum_zero_l]. destruct Q as [[x2 y2]|]; [|eexists; apply sum_zero_r].
  assert (HP := h_on _ OP). assert (HQ := h_on _ OQ). destruct OP as (A & B & _), OQ as (A' & B' & _).
  destruct (Z.eq_dec x1 x2) as [<-|N].
  - destruct (same_x _ _ _ _ _ _ _ _ FT (fp_dec p) (i a) (i b) _ _ _ HP HQ) as [E|E].
    + apply fi_inj in E; [|assumption..]. subst y2. destruct (Z.eq_dec y1 0) as [->|N0].
      * exists None. replace (Some (x1, 0)) with (ec_neg p (Some (x1, 0))) at 2; [apply sum_opposite|]. unfold ec_neg. now rewrite Z.mod_0_l by lia.
      * destruct (inv_ex (2 * y1)) with (y := 3 * x1 * x1 + a) as (l & L).
        { intros E. apply Z.mod_divide in E; [|lia]. apply prime_mult in E; [|exact Hp]. destruct E as [E|E]; apply Z.divide_pos_le in E; lia. }
        destruct (third_ex l x1 y1 x1) as (x3 & y3 & T). exists (Some (x3, y3)). now apply sum_tangent with (l := l).
    + exists None. replace (Some (x1, y2)) with (ec_neg p (Some (x1, y1))); [apply sum_opposite|]. cbn. f_equal. f_equal.
      rewrite <- fi_opp in E. apply fi_eq in E. apply cong_range; [|assumption]. now symmetry.
  - destruct (inv_ex (x2 - x1) (diff_nz _ _ A A' N) (y2 - y1)) as (l & L). destruct (third_ex l x1 y1 x2) as (x3 & y3 & T).
    exists (Some (x3, y3)). now apply sum_chord with (l := l).
Qed.
Theorem sum_iff P Q R : on_ec p a b P -> on_ec p a b Q -> on_ec p a b R -> (ec_sum p a P Q R <-> h P ++ h Q = h R).
Proof.
  intros OP OQ OR. split; [intros S; now apply sum_h|]. intros E. destruct (sum_ex P Q OP OQ) as (R' & S).
  destruct (sum_h _ _ _ OP OQ S) as (OR' & E'). replace R with R'; [exact S|]. apply h_inj; congruence.
Qed.

(** ** multiples *)
Fixpoint nmul (k : nat) (A : pt (F := F)) : pt := match k with 0%nat => O | S k => nmul k A ++ A end.
Lemma gon_nmul k A : gon A -> gon (nmul k A).
Proof. intros G. induction k as [|k IH]; [exact I|]. now apply gon_add. Qed.
Lemma multiple_h P k R : on_ec p a b P -> ec_multiple p a P k R -> on_ec p a b R /\ h R = nmul k (h P).
Proof.
  intros OP M. induction M as [|k R R' M (OR & IH) S]; [now split|]. destruct (sum_h _ _ _ OR OP S) as (OR' & E).
  split; [exact OR'|]. cbn. now rewrite <- E, IH.
Qed.
Lemma multiple_ex P k : on_ec p a b P -> exists R, ec_multiple p a P k R.
Proof.
  intros OP. induction k as [|k (R & M)]; [eexists; constructor|]. destruct (multiple_h _ _ _ OP M) as (OR & _).
  destruct (sum_ex R P OR OP) as (R' & S). exists R'. econstructor; eassumption.
Qed.
Lemma multiple_iff P k R : on_ec p a b P -> on_ec p a b R -> (ec_multiple p a P k R <-> h R = nmul k (h P)).
Proof.
  intros OP OR. split; [intros M; now apply multiple_h|]. intros E. destruct (multiple_ex P k OP) as (R' & M).
  destruct (multiple_h _ _ _ OP M) as (OR' & E'). replace R with R'; [exact M|]. apply h_inj; congruence.
Qed.

Context (NS : nonsingular p a b).
Lemma ns_fp : fadd p (fmul p (fmul p (fadd p (i 1) (i 1)) (fadd p (i 1) (i 1))) (fmul p (fmul p (i a) (i a)) (i a)))
  (fmul p (fmul p (fmul p (fadd p (fadd p (i 1) (i 1)) (i 1)) (fadd p (fadd p (i 1) (i 1)) (i 1))) (fadd p (fadd p (i 1) (i 1)) (i 1))) (fmul p (i b) (i b))) <> i 0.
Proof. rewrite <- i3, <- i2, <- !fi_mul, <- fi_add. intros E. apply fi_0 in E; [|exact Hp]. apply NS. rewrite <- E. f_equal. ring. Qed.
Theorem gassoc A B C : gon A -> gon B -> gon C -> (A ++ B) ++ C = A ++ (B ++ C).
Proof. apply (assoc _ _ _ _ _ _ _ _ FT (fp_dec p) two_nz). exact ns_fp. Qed.
Lemma nmul_add m n A : gon A -> nmul (m + n) A = nmul m A ++ nmul n A.
Proof.
  intros G. induction n as [|n IH]; [rewrite Nat.add_0_r; symmetry; apply gadd_O_r|]. rewrite Nat.add_succ_r. cbn [nmul]. rewrite IH.
  apply gassoc; auto using gon_nmul.
Qed.
Lemma nmul_pred n A : gon A -> nmul (S n) A ++ gopp A = nmul n A.
Proof. intros G. cbn [nmul]. rewrite gassoc; auto using gon_nmul, gon_opp. rewrite gadd_opp. apply gadd_O_r. Qed.
Lemma zero_opp A B : gon A -> gon B -> A ++ B = O -> B = gopp A.
Proof. apply (add_zero _ _ _ _ _ _ _ _ FT (fp_dec p) two_nz). exact ns_fp. Qed.
Lemma gopp_add A B : gon A -> gon B -> gopp (A ++ B) = gopp A ++ gopp B.
Proof. apply (opp_add _ _ _ _ _ _ _ _ FT). exact two_nz. Qed.
Lemma nmul_opp n A : gon A -> nmul n (gopp A) = gopp (nmul n A).
Proof. intros G. induction n as [|n IH]; [reflexivity|]. cbn [nmul]. rewrite IH, <- gopp_add; auto using gon_nmul. Qed.
Lemma nmul_O n : nmul n O = O.
Proof. induction n as [|n IH]; [reflexivity|]. cbn [nmul]. now rewrite IH. Qed.
Lemma nmul_mul m n A : gon A -> nmul (m * n) A = nmul m (nmul n A).
Proof. intros G. induction m as [|m IH]; [reflexivity|]. cbn [Nat.mul nmul]. rewrite Nat.add_comm, nmul_add, IH; auto. Qed.
(** integer multiples *)
Definition zmul (k : Z) (A : pt (F := F)) : pt := if 0 <=? k then nmul (Z.to_nat k) A else nmul (Z.to_nat (- k)) (gopp A).
Lemma gon_zmul k A : gon A -> gon (zmul k A).
Proof. intros G. unfold zmul. destruct (0 <=? k); auto using gon_nmul, gon_opp. Qed.
Lemma zmul_nat k A : 0 <= k -> zmul k A = nmul (Z.to_nat k) A.
Proof. intros H. unfold zmul. destruct (Z.leb_spec 0 k); [reflexivity|lia]. Qed.
Lemma zmul_opp k A : gon A -> zmul (- k) A = gopp (zmul k A).
Proof.
  intros G. unfold zmul. destruct (Z.leb_spec 0 k) as [H|H], (Z.leb_spec 0 (- k)) as [H'|H']; try lia.
  - replace k with 0 by lia. reflexivity.
  - rewrite Z.opp_involutive. now apply nmul_opp.
  - rewrite nmul_opp, gopp_opp by auto. reflexivity.
Qed.
Lemma zmul_succ k A : gon A -> zmul (k + 1) A = zmul k A ++ A.
Proof.
  intros G. destruct (Z.lt_ge_cases k 0) as [H|H].
  - replace (k + 1) with (- (- k - 1)) by ring. rewrite zmul_opp by exact G. replace k with (- (- k)) at 2 by ring. rewrite zmul_opp by exact G.
    rewrite !zmul_nat by lia. replace (Z.to_nat (- k)) with (S (Z.to_nat (- k - 1))) by lia. cbn [nmul].
    rewrite gopp_add by auto using gon_nmul. rewrite gassoc by auto using gon_nmul, gon_opp. rewrite (gadd_comm (gopp A) A), gadd_opp by auto using gon_opp. now rewrite gadd_O_r.
  - rewrite !zmul_nat by lia. replace (Z.to_nat (k + 1)) with (S (Z.to_nat k)) by lia. reflexivity.
Qed.
Lemma zmul_pred k A : gon A -> zmul (k - 1) A = zmul k A ++ gopp A.
Proof.
  intros G. replace k with (k - 1 + 1) at 2 by ring. rewrite zmul_succ by exact G. rewrite gassoc by auto using gon_zmul, gon_opp. now rewrite gadd_opp, gadd_O_r.
Qed.
Lemma zmul_add m n A : gon A -> zmul (m + n) A = zmul m A ++ zmul n A.
Proof.
  intros G. assert (K : forall n, 0 <= n -> zmul (m + n) A = zmul m A ++ zmul n A /\ zmul (m - n) A = zmul m A ++ zmul (- n) A).
  { apply natlike_ind; [rewrite Z.add_0_r, Z.sub_0_r; split; symmetry; apply gadd_O_r|]. intros x Hx (IH1 & IH2). split.
    - replace (m + Z.succ x) with (m + x + 1) by lia. rewrite zmul_succ, IH1 by exact G. change (Z.succ x) with (x + 1). rewrite zmul_succ by exact G. apply gassoc; auto using gon_zmul.
    - replace (m - Z.succ x) with (m - x - 1) by lia. rewrite zmul_pred, IH2 by exact G. replace (- Z.succ x) with (- x - 1) by lia. rewrite zmul_pred by exact G. apply gassoc; auto using gon_zmul, gon_opp. }
  destruct (Z.lt_ge_cases n 0) as [H|H]; [|now apply K]. destruct (K (- n) ltac:(lia)) as (_ & E). rewrite Z.opp_involutive in E. rewrite <- E. f_equal. lia.
Qed.
Lemma zmul_O k : zmul k O = O. Proof. unfold zmul. destruct (0 <=? k); apply nmul_O. Qed.
Lemma zmul_mul m n A : gon A -> zmul (m * n) A = zmul m (zmul n A).
Proof.
  intros G. assert (K : forall m, 0 <= m -> zmul (m * n) A = zmul m (zmul n A)).
  { apply natlike_ind; [reflexivity|]. intros x Hx IH. replace (Z.succ x * n) with (x * n + n) by lia. rewrite zmul_add, IH by exact G.
    change (Z.succ x) with (x + 1). rewrite zmul_succ; auto using gon_zmul. }
  destruct (Z.lt_ge_cases m 0) as [H|H]; [|now apply K]. replace m with (- (- m)) by ring. rewrite (zmul_opp (- m)) by auto using gon_zmul.
  rewrite <- K by lia. rewrite <- zmul_opp by exact G. f_equal. ring.
Qed.
Lemma zmul_1 A : zmul 1 A = A. Proof. reflexivity. Qed.
Lemma zmul_mod n k A : gon A -> 0 < n -> zmul n A = O -> zmul (k mod n) A = zmul k A.
Proof.
  intros G N E. rewrite (Z.div_mod k n) at 2 by lia. rewrite zmul_add by exact G. rewrite Z.mul_comm, zmul_mul, E, zmul_O by exact G. reflexivity.
Qed.
Lemma zmultiple_iff Q k R : on_ec p a b Q -> on_ec p a b R -> (ec_zmultiple p a Q k R <-> h R = zmul k (h Q)).
Proof.
  intros OP OR. unfold ec_zmultiple, zmul. destruct (0 <=? k); [now apply multiple_iff|]. rewrite <- h_neg. apply multiple_iff; auto using neg_on.
Qed.
Lemma zmultiple_ex Q k : on_ec p a b Q -> exists R, on_ec p a b R /\ ec_zmultiple p a Q k R.
Proof.
  intros OQ. destruct (h_surj (zmul k (h Q))) as (R & OR & E); [apply gon_zmul; now apply h_on|]. exists R. split; [exact OR|]. now apply zmultiple_iff.
Qed.
(** the order of a point *)
Lemma order_zmul Q n : on_ec p a b Q -> ec_order p a Q n -> 1 <= n /\ forall k, zmul k (h Q) = O <-> (n | k).
Proof.
  intros OQ (N & E & M). split; [exact N|]. assert (G := h_on Q OQ). apply multiple_h in E as (_ & E); [|exact OQ]. cbn in E.
  assert (Z0 : zmul n (h Q) = O) by now rewrite zmul_nat by lia.
  intros k. rewrite <- (zmul_mod n k (h Q)) by (auto; lia). split.
  - intros E'. apply Z.mod_divide; [lia|]. assert (R := Z.mod_pos_bound k n ltac:(lia)). destruct (Z.eq_dec (k mod n) 0) as [|N0]; [assumption|].
    exfalso. apply (M (k mod n)); [lia|]. apply multiple_iff; [exact OQ|exact I|]. rewrite zmul_nat in E' by lia. now symmetry.
  - intros D. apply Z.mod_divide in D; [|lia]. now rewrite D.
Qed.
End Curve.

(** Orders of points of Montgomery and Edwards curves from orders on short Weierstrass curves; the
    Edwards sum is associative. *)
From Coq Require Import Znumtheory Field Setoid Lia ZArith.
From Verif Require Import Proofs.Tac Proofs.Cong Proofs.Fp Proofs.ECGroup Proofs.Curve Proofs.Montgomery Proofs.Ladder Proofs.MontAdd Proofs.EdMap Proofs.EdwardsFacts.
From Verif Require Import Spec.CurveSpec Spec.MontgomerySpec Spec.EdwardsSpec.
Local Open Scope Z_scope.

Lemma two_fz p : prime p -> 3 < p -> fadd p (fi p 1) (fi p 1) <> fi p 0.
Proof. intros Hp p3. rewrite <- i2. apply fi_nz; [exact Hp|]. rewrite Z.mod_small; lia. Qed.
Lemma three_fz p : prime p -> 3 < p -> fadd p (fadd p (fi p 1) (fi p 1)) (fi p 1) <> fi p 0.
Proof. intros Hp p3. rewrite <- i3. apply fi_nz; [exact Hp|]. rewrite Z.mod_small; lia. Qed.
Lemma fdiv_eq p (Hp : prime p) u v w : v <> fi p 0 -> u = fmul p w v -> fdiv p u v = w.
Proof.
  intros N ->. rewrite (F_R (fp_field p Hp)).(Rmul_comm). rewrite (Fdiv_def (fp_field p Hp)).
  rewrite (F_R (fp_field p Hp)).(Rmul_comm), (F_R (fp_field p Hp)).(Rmul_assoc), (Finv_l (fp_field p Hp)) by exact N. apply (F_R (fp_field p Hp)).(Rmul_1_l).
Qed.
Section Mont.
Context (p : Z) (Hp : prime p) (p3 : 3 < p) (a B : Z) (NB : B mod p <> 0).
Local Notation i := (fi p).
Let FT := fp_field p Hp.
Add Field Fpfield5 : FT.
Ltac fpush := repeat rewrite ?fi_mod, ?fi_add, ?fi_sub, ?fi_mul, ?fi_opp, ?i2, ?i3, ?fi_mod by exact Hp.
(** the coefficient and the point of the short Weierstrass form *)
Lemma wA_cert w : 0 <= w < p -> (3 * B * B * w - (3 - a * a)) mod p = 0 -> wA p a B = w.
Proof.
  intros R E. apply (fi_inj p); [now apply fv_range|exact R|]. unfold Ladder.wA. rewrite fi_fv. apply (fi_diff p Hp) in E. revert E. fpush. intros E. unfold wa. apply (fdiv_eq p Hp).
  - intros K. apply (f0_mul p Hp) in K as [K|K]; [|now apply (B_nz' p Hp B NB)]. apply (f0_mul p Hp) in K as [K|K]; [now apply (three_fz p Hp p3)|now apply (B_nz' p Hp B NB)].
  - rewrite <- E. ring.
Qed.
Lemma M_cert u v x y : (3 * B * x - (3 * u + a)) mod p = 0 -> (B * y - v) mod p = 0 ->
  M (i 1) (fadd p) (fdiv p) (i a) (i B) (i u) (i v) = ECGroup.P (i x) (i y).
Proof.
  intros E1 E2. apply (fi_diff p Hp) in E1, E2. revert E1 E2. fpush. intros E1 E2. unfold M. assert (NB' := B_nz' p Hp B NB). assert (N3 := three_fz p Hp p3). f_equal.
  - apply (fdiv_eq p Hp _ _ _ NB'). assert (K : fdiv p (i a) (fadd p (fadd p (i 1) (i 1)) (i 1)) = fsub p (fmul p (i x) (i B)) (i u)).
    { apply (fdiv_eq p Hp _ _ _ N3). transitivity (fsub p (fadd p (fmul p (fadd p (fadd p (i 1) (i 1)) (i 1)) (i u)) (i a)) (fmul p (fadd p (fadd p (i 1) (i 1)) (i 1)) (i u))); [ring|]. rewrite <- E1. ring. }
    rewrite K. ring.
  - apply (fdiv_eq p Hp _ _ _ NB'). rewrite <- E2. ring.
Qed.
Lemma mg_order_cert w x y u v n : 0 <= w < p -> (3 * B * B * w - (3 - a * a)) mod p = 0 -> (3 * B * x - (3 * u + a)) mod p = 0 -> (B * y - v) mod p = 0 ->
  on_mg p a B (Some (u, v)) ->
  1 <= n -> nmul p w (Z.to_nat n) (ECGroup.P (i x) (i y)) = O -> (forall k, 1 <= k < n -> nmul p w (Z.to_nat k) (ECGroup.P (i x) (i y)) <> O) -> mg_order p a B (Some (u, v)) n.
Proof.
  intros Rw EW E1 E2 OP N1 NO NK. assert (W := wA_cert w Rw EW). assert (HM : hm p a B (Some (u, v)) = ECGroup.P (i x) (i y)) by (apply M_cert; assumption).
  split; [exact N1|]. split.
  - destruct (mg_multiple_ex p Hp p3 a B NB _ (Z.to_nat n) OP) as (R & S). destruct (mg_multiple_hm p Hp p3 a B NB _ _ _ OP S) as (_ & H).
    rewrite HM, W, NO in H. destruct R as [[? ?]|]; [discriminate H|exact S].
  - intros k K S. destruct (mg_multiple_hm p Hp p3 a B NB _ _ _ OP S) as (_ & H). rewrite HM, W in H. now apply (NK k K).
Qed.
End Mont.

Section Ed.
Context (p : Z) (Hp : prime p) (p3 : 3 < p) (e d : Z) (ND : (e * d) mod p <> 0) (NED : (e - d) mod p <> 0).
Context (a B : Z) (EB : (B * (e - d) - 4) mod p = 0) (EA : (a * (e - d) - 2 * (e + d)) mod p = 0).
Local Notation i := (fi p).
Let FT := fp_field p Hp.
Add Field Fpfield6 : FT.
Ltac fpush := repeat rewrite ?fi_mod, ?fi_add, ?fi_sub, ?fi_mul, ?fi_opp, ?(Ladder.i4 p), ?i2, ?i3, ?fi_mod by exact Hp.
Local Notation "x [+] y" := (fadd p x y) (at level 50, left associativity).
Local Notation "x [-] y" := (fsub p x y) (at level 50, left associativity).
Local Notation "x [*] y" := (fmul p x y) (at level 40, left associativity).
Local Notation two := (i 1 [+] i 1).
Local Notation two_nz := (two_fz p Hp p3).
Local Notation three_nz := (three_fz p Hp p3).
Lemma four_nz : two [*] two <> i 0. Proof. intros E. apply (f0_mul p Hp) in E as [E|E]; now apply two_nz. Qed.
Lemma fEB : i B [*] (i e [-] i d) = two [*] two. Proof. apply (fi_diff p Hp) in EB. revert EB. fpush. auto. Qed.
Lemma fEA : i a [*] (i e [-] i d) = two [*] (i e [+] i d). Proof. apply (fi_diff p Hp) in EA. revert EA. fpush. auto. Qed.
Lemma ed_nz : i e [-] i d <> i 0. Proof. rewrite <- fi_sub by exact Hp. now apply fi_nz. Qed.
Lemma e_d_nz : i e [*] i d <> i 0. Proof. rewrite <- fi_mul by exact Hp. now apply fi_nz. Qed.
Lemma B_nz : i B <> i 0. Proof. intros E. apply four_nz. rewrite <- fEB, E. ring. Qed.
Lemma NB : B mod p <> 0. Proof. intros E. apply B_nz. now apply (fi_0 p Hp). Qed.
Lemma a_ns : i a [*] i a [-] two [*] two <> i 0.
Proof.
  intros E. assert (K : two [*] two [*] (two [*] two) [*] (i e [*] i d) = i 0).
  { transitivity ((i a [*] (i e [-] i d)) [*] (i a [*] (i e [-] i d)) [-] two [*] two [*] ((i e [-] i d) [*] (i e [-] i d))); [rewrite fEA; ring|].
    transitivity ((i a [*] i a [-] two [*] two) [*] ((i e [-] i d) [*] (i e [-] i d))); [ring|]. rewrite E. ring. }
  apply (f0_mul p Hp) in K as [K|K]; [|now apply e_d_nz]. apply (f0_mul p Hp) in K as [K|K]; now apply four_nz.
Qed.
Lemma NA : (a * a - 4) mod p <> 0.
Proof. intros E. apply a_ns. apply (fi_0 p Hp) in E. revert E. fpush. auto. Qed.
Local Notation ce := (ce (i 1) (fadd p) (fdiv p) (i a) (i B)).
Local Notation cd := (cd (i 1) (fadd p) (fsub p) (fdiv p) (i a) (i B)).
Lemma ce_e : ce = i e.
Proof.
  unfold EdMap.ce. apply (fdiv_eq p Hp _ _ _ B_nz). apply (f_sub p Hp).
  destruct (f0_mul p Hp ((i a [+] two) [-] i e [*] i B) (i e [-] i d)) as [E|E]; [|exact E|now apply ed_nz in E].
  transitivity (i a [*] (i e [-] i d) [+] two [*] (i e [-] i d) [-] i e [*] (i B [*] (i e [-] i d))); [ring|]. rewrite fEA, fEB. ring.
Qed.
Lemma cd_d : cd = i d.
Proof.
  unfold EdMap.cd. apply (fdiv_eq p Hp _ _ _ B_nz). apply (f_sub p Hp).
  destruct (f0_mul p Hp ((i a [-] two) [-] i d [*] i B) (i e [-] i d)) as [E|E]; [|exact E|now apply ed_nz in E].
  transitivity (i a [*] (i e [-] i d) [-] two [*] (i e [-] i d) [-] i d [*] (i B [*] (i e [-] i d))); [ring|]. rewrite fEA, fEB. ring.
Qed.
Local Notation on_ed := (on_ed (i 1) (fadd p) (fmul p) (fsub p) (fdiv p) (i a) (i B)).
Lemma on_ed_fp x y : on_edwards p e d x y <-> on_ed (i x) (i y).
Proof.
  unfold EdMap.on_ed. rewrite ce_e, cd_d, (on_fp p Hp). split; intros E.
  - transitivity (i e [*] (i x [*] i x) [+] i y [*] i y); [ring|]. rewrite E. ring.
  - transitivity (i e [*] i x [*] i x [+] i y [*] i y); [ring|]. rewrite E. ring.
Qed.
Definition em (x y : Z) : pt := EM (i 0) (i 1) (fadd p) (fsub p) (fdiv p) (fp_dec p) (i a) (i B) (i x) (i y).
Local Notation wA := (wA p a B).
Local Notation wB := (wB p a B).
Local Infix "++" := (gadd p wA).
Lemma em_on x y : on_edwards p e d x y -> gon p wA wB (em x y).
Proof. intros H. apply on_ed_fp in H. rewrite gon_eq. apply (EM_on _ _ _ _ _ _ _ _ FT (fp_dec p) two_nz three_nz (i a) (i B) B_nz). exact H. Qed.
Lemma em_inj x y x' y' : on_edwards p e d x y -> on_edwards p e d x' y' -> em x y = em x' y' -> i x = i x' /\ i y = i y'.
Proof. intros H H'. apply on_ed_fp in H, H'. apply (EM_inj _ _ _ _ _ _ _ _ FT (fp_dec p) two_nz three_nz (i a) (i B) B_nz); assumption. Qed.
Lemma em_zero : em 0 1 = O.
Proof. unfold em. apply EM_O. Qed.
Lemma em_sum x1 y1 x2 y2 x3 y3 : on_edwards p e d x1 y1 -> on_edwards p e d x2 y2 -> ed_defined p d x1 y1 x2 y2 -> ed_sum p e d x1 y1 x2 y2 x3 y3 ->
  on_edwards p e d x3 y3 /\ em x1 y1 ++ em x2 y2 = em x3 y3.
Proof.
  intros H1 H2 D S. assert (H3 := sum_on p Hp e d _ _ _ _ _ _ H1 H2 D S). split; [exact H3|]. rewrite gadd_eq. apply on_ed_fp in H1, H2, H3.
  destruct D as (D1 & D2), S as (_ & _ & X & Y). rewrite <- (fi_0 p Hp) in D1, D2. apply (fi_diff p Hp) in X, Y. revert D1 D2 X Y. fpush. intros D1 D2 X Y.
  apply (EM_sum _ _ _ _ _ _ _ _ FT (fp_dec p) two_nz three_nz (i a) (i B) B_nz); rewrite ?cd_d, ?ce_e; assumption.
Qed.
Lemma em_multiple x y k x' y' : on_edwards p e d x y -> ed_multiple p e d x y k x' y' -> on_edwards p e d x' y' /\ em x' y' = nmul p wA k (em x y).
Proof.
  intros H M. induction M as [|k x1 y1 x2 y2 M (H1 & IH) D S].
  - split; [|exact em_zero]. unfold on_edwards. replace (e * 0 ^ 2 + 1 ^ 2 - (1 + d * 0 ^ 2 * 1 ^ 2)) with 0 by ring. apply Z.mod_0_l. lia.
  - destruct (em_sum _ _ _ _ _ _ H1 H D S) as (H2 & E). split; [exact H2|]. cbn [nmul]. now rewrite <- E, IH.
Qed.
Lemma ed_multiple_range x y k x' y' : ed_multiple p e d x y k x' y' -> 0 <= x' < p /\ 0 <= y' < p.
Proof. intros M. destruct M as [|k x1 y1 x2 y2 M D (A & A' & _)]; [lia|auto]. Qed.
(** when the sum is complete every multiple exists *)
Lemma ed_multiple_ex x y k : (forall x1 y1 x2 y2, on_edwards p e d x1 y1 -> on_edwards p e d x2 y2 -> ed_defined p d x1 y1 x2 y2) ->
  on_edwards p e d x y -> exists x' y', ed_multiple p e d x y k x' y'.
Proof.
  intros C H. induction k as [|k (x1 & y1 & M)]; [exists 0, 1; constructor|]. destruct (em_multiple _ _ _ _ _ H M) as (H1 & _).
  destruct (c88_sum p e d x1 y1 x y Hp H1 H (C _ _ _ _ H1 H)) as (x3 & y3 & S & _). exists x3, y3. econstructor; eauto.
Qed.
(** the point of the Montgomery curve *)
Lemma em_M x y u v : on_edwards p e d x y -> x mod p <> 0 -> (u * (1 - y) - (1 + y)) mod p = 0 -> (v * x - u) mod p = 0 ->
  em x y = M (i 1) (fadd p) (fdiv p) (i a) (i B) (i u) (i v).
Proof.
  intros H N EU EV. apply on_ed_fp in H. assert (N' : i x <> i 0) by now apply fi_nz.
  destruct (one_y _ _ _ _ _ _ _ _ FT (fp_dec p) two_nz (i a) (i B) B_nz _ _ H N') as (N1 & _).
  apply (fi_diff p Hp) in EU, EV. revert EU EV. fpush. intros EU EV. unfold em, EM. destruct (fp_dec p (i x) (i 0)) as [E|_]; [contradiction|].
  assert (U : i u = fdiv p (i 1 [+] i y) (i 1 [-] i y)) by (symmetry; apply (fdiv_eq p Hp _ _ _ N1); now symmetry). rewrite <- U. f_equal. apply (fdiv_eq p Hp _ _ _ N'). now symmetry.
Qed.
Lemma ed_order_cert x y u v w X Y n : (forall x1 y1 x2 y2, on_edwards p e d x1 y1 -> on_edwards p e d x2 y2 -> ed_defined p d x1 y1 x2 y2) ->
  on_edwards p e d x y -> x mod p <> 0 -> (u * (1 - y) - (1 + y)) mod p = 0 -> (v * x - u) mod p = 0 ->
  0 <= w < p -> (3 * B * B * w - (3 - a * a)) mod p = 0 -> (3 * B * X - (3 * u + a)) mod p = 0 -> (B * Y - v) mod p = 0 ->
  1 <= n -> nmul p w (Z.to_nat n) (ECGroup.P (i X) (i Y)) = O -> (forall k, 1 <= k < n -> nmul p w (Z.to_nat k) (ECGroup.P (i X) (i Y)) <> O) -> ed_order p e d x y n.
Proof.
  intros C H N EU EV Rw EW E1 E2 N1 NO NK. assert (W := wA_cert p Hp p3 a B NB w Rw EW).
  assert (HM : em x y = ECGroup.P (i X) (i Y)) by (rewrite (em_M x y u v) by assumption; apply (M_cert p Hp p3 a B NB); assumption).
  assert (Z1 : on_edwards p e d 0 1). { unfold on_edwards. replace (e * 0 ^ 2 + 1 ^ 2 - (1 + d * 0 ^ 2 * 1 ^ 2)) with 0 by ring. apply Z.mod_0_l. lia. }
  split; [exact N1|]. split.
  - destruct (ed_multiple_ex x y (Z.to_nat n) C H) as (x' & y' & M). destruct (em_multiple _ _ _ _ _ H M) as (H' & E). rewrite HM, W, NO, <- em_zero in E.
    apply em_inj in E as (Ex & Ey); [|assumption..]. destruct (ed_multiple_range _ _ _ _ _ M) as (Rx & Ry). assert (X0 : 0 = x') by (apply (fi_inj p); [lia|exact Rx|now symmetry]). assert (Y0 : 1 = y') by (apply (fi_inj p); [lia|exact Ry|now symmetry]). rewrite <- X0, <- Y0 in M. exact M.
  - intros k K M. destruct (em_multiple _ _ _ _ _ H M) as (_ & E). rewrite HM, W, em_zero in E. symmetry in E. now apply (NK k K).
Qed.
Lemma ed_assoc x1 y1 x2 y2 x3 y3 x12 y12 x23 y23 xl yl xr yr :
  on_edwards p e d x1 y1 -> on_edwards p e d x2 y2 -> on_edwards p e d x3 y3 ->
  ed_defined p d x1 y1 x2 y2 -> ed_sum p e d x1 y1 x2 y2 x12 y12 -> ed_defined p d x12 y12 x3 y3 -> ed_sum p e d x12 y12 x3 y3 xl yl ->
  ed_defined p d x2 y2 x3 y3 -> ed_sum p e d x2 y2 x3 y3 x23 y23 -> ed_defined p d x1 y1 x23 y23 -> ed_sum p e d x1 y1 x23 y23 xr yr ->
  xl = xr /\ yl = yr.
Proof.
  intros H1 H2 H3 D12 S12 Dl Sl D23 S23 Dr Sr. destruct (em_sum _ _ _ _ _ _ H1 H2 D12 S12) as (H12 & E12). destruct (em_sum _ _ _ _ _ _ H2 H3 D23 S23) as (H23 & E23).
  destruct (em_sum _ _ _ _ _ _ H12 H3 Dl Sl) as (Hl & El). destruct (em_sum _ _ _ _ _ _ H1 H23 Dr Sr) as (Hr & Er).
  assert (E : em xl yl = em xr yr).
  { rewrite <- El, <- Er, <- E12, <- E23. apply (gassoc p Hp p3 wA wB (wns p Hp p3 a B NB NA)); apply em_on; assumption. }
  apply em_inj in E as (Ex & Ey); [|assumption..]. destruct Sl as (R1 & R2 & _), Sr as (R3 & R4 & _). split; apply (fi_inj p); assumption.
Qed.
End Ed.

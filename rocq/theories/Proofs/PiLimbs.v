(** Evaluation of nested affine maps v |-> (P + Q v) / (Q X) on fractions written with
    62-bit limbs, most significant first; digits may exceed 2^62. *)
From Coq Require Import ZArith List Uint63 Reals Lia Lra.
Import ListNotations.
Local Open Scope Z_scope.

Inductive limbs := Nil | Cons (d : int) (l : limbs).
Fixpoint size (l : limbs) : nat := match l with Nil => O | Cons _ l => S (size l) end.
Definition B : Z := 2 ^ 62.
Fixpoint num (l : limbs) : Z :=
  match l with Nil => 0 | Cons d l => to_Z d * B ^ Z.of_nat (size l) + num l end.
(** r/R plus Q/R times the fraction, truncated; [q2] = 2Q, [r2] = 2R *)
Fixpoint go (q2 r2 r : int) (ds : limbs) : limbs :=
  match ds with
  | Nil => Nil
  | Cons d ds =>
    let (h, l) := mulc d q2 in
    let (q, rr) := diveucl_21 (r + h)%uint63 l r2 in
    Cons q (go q2 r2 (rr >> 1)%uint63 ds)
  end.

Lemma go_ok Q R q2 r2 : to_Z q2 = 2 * Q -> to_Z r2 = 2 * R -> 0 < Q -> 2 * Q <= R ->
  forall ds r, 0 <= to_Z r < R -> size (go q2 r2 r ds) = size ds /\
  exists rf, 0 <= rf < R /\ R * num (go q2 r2 r ds) + rf = to_Z r * B ^ Z.of_nat (size ds) + Q * num ds.
Proof.
  intros EQ ER Q0 QR. induction ds as [|d ds IH]; intros r Hr.
  - split; [reflexivity|]. exists (to_Z r). cbn [go num size]. change (B ^ Z.of_nat 0) with 1. split; [exact Hr|ring].
  - cbn [go]. pose proof (mulc_spec d q2) as M. pose proof (to_Z_bounded r2) as BR. pose proof (to_Z_bounded d) as BD.
    assert (W : wB = 2 * B) by reflexivity. assert (W0 : 0 < B) by reflexivity.
    destruct (mulc d q2) as [h l]. cbn [fst snd] in M. pose proof (to_Z_bounded l) as BL. pose proof (to_Z_bounded h) as BH.
    assert (HH : to_Z h < 2 * Q) by (apply (Z.mul_lt_mono_pos_r wB); [lia|]; apply (Z.le_lt_trans _ (to_Z d * (2 * Q))); [rewrite <- EQ; lia|]; rewrite (Z.mul_comm (2 * Q)); apply Z.mul_lt_mono_pos_r; lia).
    assert (SUM : to_Z (r + h)%uint63 = to_Z r + to_Z h) by (rewrite add_spec; apply Z.mod_small; lia).
    pose proof (diveucl_21_spec (r + h)%uint63 l r2) as D. destruct (diveucl_21 (r + h)%uint63 l r2) as [q rr].
    pose proof (Z_div_mod (to_Z (r + h)%uint63 * wB + to_Z l) (to_Z r2) ltac:(lia)) as DM.
    destruct (Z.div_eucl (to_Z (r + h)%uint63 * wB + to_Z l) (to_Z r2)) as [q' r']. destruct DM as [DM1 DM2].
    destruct D as [Eq Er]; [lia|]. rewrite ER, SUM in *.
    assert (EV : 2 * (to_Z r * B + to_Z d * Q) = q' * (2 * R) + r') by (rewrite EQ, W in *; clear - DM1 M; nia).
    assert (EH : to_Z (rr >> 1) = to_Z r * B + to_Z d * Q - q' * R).
    { rewrite lsr_spec. change (2 ^ to_Z 1) with 2. rewrite Er. symmetry. apply (Z.div_unique _ _ _ 0); [lia|]. clear - EV. lia. }
    destruct (IH (rr >> 1)%uint63) as (SZ & rf & F & E).
    { rewrite EH. clear - EV DM2. lia. }
    split; [cbn [size]; f_equal; exact SZ|]. exists rf. split; [exact F|]. cbn [num size]. rewrite SZ, Nat2Z.inj_succ, Z.pow_succ_r by lia.
    rewrite EH in E. rewrite Eq. clear - E. nia.
Qed.

(** numerator P, 2Q, 2R *)
Definition coef : Type := int * int * int.
Definition apply1 (c : coef) (ds : limbs) : limbs := let '(p, q2, r2) := c in go q2 r2 p ds.
Fixpoint steps (cs : list coef) (ds : limbs) : limbs :=
  match cs with [] => ds | c :: cs => steps cs (apply1 c ds) end.
(** append zeros; the matches force the evaluation of the list *)
Fixpoint pad (m : nat) : limbs := match m with O => Nil | S m => Cons 0%uint63 (pad m) end.
Fixpoint extend (m : nat) (ds : limbs) : limbs :=
  match ds with
  | Nil => pad m
  | Cons d l => match extend m l with Nil => Cons d Nil | Cons a b => Cons d (Cons a b) end
  end.
Fixpoint blocks (m : nat) (cbs : list (list coef)) (ds : limbs) : limbs :=
  match cbs with [] => ds | cs :: r => blocks m r (steps cs (extend m ds)) end.

Local Open Scope R_scope.
Definition good (X : Z) (c : coef) : Prop :=
  let '(p, q2, r2) := c in
  exists Q, (0 < Q /\ to_Z q2 = 2 * Q /\ to_Z r2 = 2 * (Q * X) /\ 0 <= to_Z p < Q * X)%Z.
Definition alpha (c : coef) : R := let '(p, q2, r2) := c in 2 * IZR (to_Z p) / IZR (to_Z r2).
Definition aff (X : Z) (c : coef) (v : R) : R := alpha c + v / IZR X.
Definition affs (X : Z) (cs : list coef) (v : R) : R := fold_left (fun v c => aff X c v) cs v.
Definition near (e : R) (l : limbs) (v : R) : Prop := 0 <= v * IZR B ^ size l - IZR (num l) <= e.

Lemma apply1_near X c e l v : (2 <= X)%Z -> good X c -> near e l v -> near (1 + e / IZR X) (apply1 c l) (aff X c v) /\ size (apply1 c l) = size l.
Proof.
  intros X2 G N. destruct c as [[p q2] r2]. destruct G as (Q & Q0 & Eq & Er & P). cbn [apply1].
  destruct (go_ok Q (Q * X) q2 r2 Eq Er Q0 ltac:(nia) l p P) as (SZ & rf & F & E). split; [|exact SZ].
  unfold near, aff, alpha in *. rewrite SZ, Er.
  assert (QR : 0 < IZR Q) by (apply IZR_lt; exact Q0). assert (XR : 0 < IZR X) by (apply IZR_lt; lia).
  apply (f_equal IZR) in E. rewrite !plus_IZR, !mult_IZR in E. rewrite <- pow_IZR in E.
  assert (F1 : 0 <= IZR rf) by (apply IZR_le; lia). assert (F2 : IZR rf <= IZR Q * IZR X) by (rewrite <- mult_IZR; apply IZR_le; lia).
  assert (V : (2 * IZR (to_Z p) / IZR (2 * (Q * X)) + v / IZR X) * IZR B ^ size l - IZR (num (go q2 r2 p l)) =
     IZR rf / (IZR Q * IZR X) + (v * IZR B ^ size l - IZR (num l)) / IZR X).
  { rewrite !mult_IZR. apply (Rmult_eq_reg_l (IZR Q * IZR X)); [|apply Rgt_not_eq, Rmult_lt_0_compat; assumption].
    transitivity (IZR (to_Z p) * IZR B ^ size l + IZR Q * v * IZR B ^ size l - IZR Q * IZR X * IZR (num (go q2 r2 p l))); [field; lra|].
    transitivity (IZR rf + IZR Q * (v * IZR B ^ size l - IZR (num l))); [lra|field; lra]. }
  rewrite V. clear V E. assert (I1 : 0 <= IZR rf / (IZR Q * IZR X) <= 1).
  { assert (0 < IZR Q * IZR X) by (apply Rmult_lt_0_compat; assumption). split.
    - apply Rmult_le_pos; [exact F1|]. left. apply Rinv_0_lt_compat. assumption.
    - apply (Rmult_le_reg_r (IZR Q * IZR X)); [assumption|]. unfold Rdiv. rewrite Rmult_assoc, Rinv_l by lra. lra. }
  assert (IX : 0 < / IZR X) by (apply Rinv_0_lt_compat; exact XR). unfold Rdiv.
  split.
  - apply Rplus_le_le_0_compat; [apply I1|]. apply Rmult_le_pos; lra.
  - apply Rplus_le_compat; [apply I1|]. apply Rmult_le_compat_r; lra.
Qed.
Lemma steps_near X cs : (2 <= X)%Z -> Forall (good X) cs -> forall f l v, near (IZR X / (IZR X - 1) + f) l v ->
  near (IZR X / (IZR X - 1) + f / IZR X ^ length cs) (steps cs l) (affs X cs v) /\ size (steps cs l) = size l.
Proof.
  intros X2 H. assert (XR : 2 <= IZR X) by (apply IZR_le; exact X2). induction H as [|c cs G H IH]; intros f l v N.
  - cbn. split; [|reflexivity]. replace (f / 1) with f by field. exact N.
  - destruct (apply1_near X c _ l v X2 G N) as [N1 S1]. cbn [steps affs fold_left length].
    replace (1 + (IZR X / (IZR X - 1) + f) / IZR X) with (IZR X / (IZR X - 1) + f / IZR X) in N1 by (field; lra).
    destruct (IH _ _ _ N1) as [N2 S2]. split; [|congruence].
    replace (f / IZR X ^ S (length cs)) with (f / IZR X / IZR X ^ length cs); [exact N2|].
    cbn [pow]. field. split; [apply pow_nonzero|]; lra.
Qed.
Lemma size_pad m : size (pad m) = m.
Proof. induction m; cbn; congruence. Qed.
Lemma num_pad m : num (pad m) = 0%Z.
Proof. induction m as [|m IH]; cbn [pad num]; [reflexivity|]. rewrite IH. change (to_Z 0) with 0%Z. ring. Qed.
Lemma extend_eq m d l : extend m (Cons d l) = Cons d (extend m l).
Proof. cbn [extend]. destruct (extend m l); reflexivity. Qed.
Lemma size_extend m l : size (extend m l) = (size l + m)%nat.
Proof. induction l as [|d l IH]; [apply size_pad|]. rewrite extend_eq. cbn [size]. rewrite IH. reflexivity. Qed.
Lemma num_extend m l : num (extend m l) = (num l * B ^ Z.of_nat m)%Z.
Proof.
  induction l as [|d l IH]; [apply num_pad|]. rewrite extend_eq. cbn [num]. rewrite IH, size_extend, Nat2Z.inj_add, Z.pow_add_r by lia. ring.
Qed.
Lemma extend_near m e l v : near e l v -> near (e * IZR B ^ m) (extend m l) v.
Proof.
  unfold near. intros N. rewrite size_extend, num_extend, mult_IZR, <- pow_IZR, pow_add.
  replace (v * (IZR B ^ size l * IZR B ^ m) - IZR (num l) * IZR B ^ m) with ((v * IZR B ^ size l - IZR (num l)) * IZR B ^ m) by ring.
  assert (P : 0 <= IZR B ^ m) by (apply pow_le, IZR_le; discriminate).
  split; [apply Rmult_le_pos; lra|apply Rmult_le_compat_r; lra].
Qed.
Lemma block_near X m s cs l v : (11 <= X)%Z -> (20 * B ^ Z.of_nat m <= 9 * X ^ Z.of_nat s)%Z -> length cs = s -> Forall (good X) cs ->
  near 2 l v -> near 2 (steps cs (extend m l)) (affs X cs v) /\ size (steps cs (extend m l)) = (size l + m)%nat.
Proof.
  intros X11 C L G N. assert (XR : 11 <= IZR X) by (apply IZR_le; exact X11). apply (extend_near m) in N.
  replace (2 * IZR B ^ m) with (IZR X / (IZR X - 1) + (2 * IZR B ^ m - IZR X / (IZR X - 1))) in N by ring.
  destruct (steps_near X cs ltac:(lia) G _ _ _ N) as [N1 S1]. split; [|rewrite S1; apply size_extend].
  assert (K : IZR X / (IZR X - 1) <= 11 / 10).
  { apply (Rmult_le_reg_r (IZR X - 1)); [lra|]. unfold Rdiv at 1. rewrite Rmult_assoc, Rinv_l; lra. }
  assert (K0 : 0 < IZR X / (IZR X - 1)) by (apply Rdiv_lt_0_compat; lra).
  assert (XS : 0 < IZR X ^ s) by (apply pow_lt; lra).
  assert (F : (2 * IZR B ^ m - IZR X / (IZR X - 1)) / IZR X ^ length cs <= 9 / 10).
  { rewrite L. apply (Rmult_le_reg_r (IZR X ^ s)); [exact XS|]. unfold Rdiv at 1. rewrite Rmult_assoc, Rinv_l by lra.
    apply IZR_le in C. rewrite !mult_IZR, <- !pow_IZR in C. lra. }
  destruct N1 as [N1 N2]. split; [exact N1|]. eapply Rle_trans; [exact N2|]. lra.
Qed.
Lemma blocks_near X m s : (11 <= X)%Z -> (20 * B ^ Z.of_nat m <= 9 * X ^ Z.of_nat s)%Z -> forall cbs, Forall (fun cs => length cs = s /\ Forall (good X) cs) cbs ->
  forall l v, near 2 l v -> near 2 (blocks m cbs l) (affs X (concat cbs) v) /\ size (blocks m cbs l) = (size l + length cbs * m)%nat.
Proof.
  intros X11 C cbs H. induction H as [|cs cbs [L G] H IH]; intros l v N; [cbn; split; [exact N|lia]|].
  destruct (block_near X m s cs l v X11 C L G N) as [N1 S1]. destruct (IH _ _ N1) as [N2 S2]. cbn [blocks concat length].
  split; [|rewrite S2, S1; lia]. unfold affs. rewrite fold_left_app. exact N2.
Qed.

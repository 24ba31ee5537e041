(** Bounds on e by the alternating series of exp (-1). *)
From Coq Require Import ZArith Reals Lra Lia Factorial.
Local Open Scope R_scope.

Definition inv_fact (n : nat) : R := / INR (fact n).
Lemma inv_fact_pos n : 0 < inv_fact n.
Proof. apply Rinv_0_lt_compat. apply lt_0_INR. apply lt_O_fact. Qed.
Lemma inv_fact_decr : Un_decreasing inv_fact.
Proof.
  intros n. unfold inv_fact. apply Rinv_le_contravar; [apply lt_0_INR, lt_O_fact|]. apply le_INR, fact_le. lia.
Qed.
Lemma inv_fact_cv : Un_cv inv_fact 0.
Proof.
  intros eps He. destruct (cv_speed_pow_fact 1 eps He) as (N & H). exists N. intros n Hn. specialize (H n Hn).
  unfold R_dist in *. unfold inv_fact. rewrite pow1 in H. unfold Rdiv in H. now rewrite Rmult_1_l in H.
Qed.
Lemma exp_m1_cv : Un_cv (fun N => sum_f_R0 (tg_alt inv_fact) N) (exp (-1)).
Proof.
  unfold exp. destruct (exist_exp (-1)) as (l & Hl). cbn [proj1_sig]. unfold exp_in, infinite_sum in Hl.
  intros eps He. destruct (Hl eps He) as (N & H). exists N. intros n Hn. specialize (H n Hn).
  replace (sum_f_R0 (tg_alt inv_fact) n) with (sum_f_R0 (fun i => / INR (fact i) * (-1) ^ i) n); [exact H|].
  apply sum_eq. intros i _. unfold tg_alt, inv_fact. ring.
Qed.
(** numerator of the partial sum over n!, and n! *)
Fixpoint sums (n : nat) : Z * Z * Z * Z :=
  match n with
  | O => (0, 1, 1, 1)%Z
  | S n => let '(i, s, f, a) := sums n in (i + 1, - s, (i + 1) * f, (i + 1) * a - s)%Z
  end.
Lemma sums_ok n : let '(i, s, f, a) := sums n in i = Z.of_nat n /\ IZR s = (-1) ^ n /\ f = Z.of_nat (fact n) /\ IZR a = sum_f_R0 (tg_alt inv_fact) n * IZR f.
Proof.
  induction n as [|n IH]; cbn [sums].
  - split; [reflexivity|]. split; [reflexivity|]. split; [reflexivity|]. cbn. unfold tg_alt, inv_fact. cbn. field.
  - destruct (sums n) as [[[i s] f] a]. destruct IH as (Ei & Es & Ef & Ea). split; [lia|]. split; [rewrite opp_IZR, Es; cbn [pow]; ring|].
    split; [rewrite Ef, Ei; cbn [fact]; lia|]. rewrite minus_IZR, !mult_IZR, Ea, tech5.
    assert (F : f = Z.of_nat (fact n)) by exact Ef.
    replace (tg_alt inv_fact (S n)) with (- (-1) ^ n * / INR (fact (S n))) by (unfold tg_alt, inv_fact; cbn [pow]; ring). rewrite Es.
    assert (G : INR (fact (S n)) = IZR (i + 1) * IZR f).
    { rewrite INR_IZR_INZ, <- mult_IZR. f_equal. rewrite Ei, F. cbn [fact]. lia. }
    rewrite G. assert (IZR (i + 1) <> 0) by (apply not_0_IZR; lia). assert (IZR f <> 0) by (apply not_0_IZR; rewrite F; pose proof (lt_O_fact n); lia).
    field. now split.
Qed.
Definition e_check (n : nat) (m V : Z) : bool :=
  let '(i, s, f, a) := sums (2 * n) in let f' := ((i + 1) * f)%Z in let a' := ((i + 1) * a - s)%Z in
  ((0 <? a) && (0 <? a') && (V * a <=? f * 2 ^ m) && (f' * 2 ^ m <? (V + 1) * a'))%Z%bool.
Lemma e_check_ok n m V : (0 <= m)%Z -> e_check n m V = true -> IZR V <= exp 1 * IZR (2 ^ m) < IZR V + 1.
Proof.
  intros Hm. unfold e_check. pose proof (sums_ok (2 * n)) as A. pose proof (sums_ok (S (2 * n))) as C.
  cbn [sums] in C. destruct (sums (2 * n)) as [[[i s] f] a]. cbv zeta. set (f' := ((i + 1) * f)%Z) in *. set (a' := ((i + 1) * a - s)%Z) in *. clearbody f' a'.
  destruct A as (_ & _ & Ef & Ea). destruct C as (_ & _ & Ef' & Ea').
  rewrite !Bool.andb_true_iff. intros (((H1 & H2) & H3) & H4). apply Z.ltb_lt in H1, H2, H4. apply Z.leb_le in H3.
  destruct (alternated_series_ineq inv_fact (exp (-1)) n inv_fact_decr inv_fact_cv exp_m1_cv) as (LO & HI).
  assert (X : exp 1 * exp (-1) = 1) by (rewrite <- exp_plus; replace (1 + -1) with 0 by ring; exact exp_0).
  pose proof (exp_pos 1) as P1. set (e := exp 1) in *. set (d := exp (-1)) in *.
  assert (F0 : 0 < IZR f) by (apply IZR_lt; rewrite Ef; pose proof (lt_O_fact (2 * n)); lia).
  assert (F1 : 0 < IZR f') by (apply IZR_lt; rewrite Ef'; pose proof (lt_O_fact (S (2 * n))); lia).
  assert (D1 : d * IZR f <= IZR a) by (rewrite Ea; apply Rmult_le_compat_r; lra).
  assert (D2 : IZR a' <= d * IZR f') by (rewrite Ea'; apply Rmult_le_compat_r; lra).
  assert (A0 : 0 < IZR a) by (apply IZR_lt; lia). assert (A1 : 0 < IZR a') by (apply IZR_lt; lia).
  assert (E1 : IZR f <= e * IZR a) by (replace (IZR f) with (e * (d * IZR f)) by (rewrite <- Rmult_assoc, X; ring); apply Rmult_le_compat_l; lra).
  assert (E2 : e * IZR a' <= IZR f') by (replace (IZR f') with (e * (d * IZR f')) by (rewrite <- Rmult_assoc, X; ring); apply Rmult_le_compat_l; lra).
  apply IZR_le in H3. apply IZR_lt in H4. rewrite !mult_IZR in H3, H4. rewrite plus_IZR in H4. set (W := IZR (2 ^ m)) in *.
  assert (W0 : 0 < W) by (unfold W; apply IZR_lt; apply Z.pow_pos_nonneg; lia). split.
  - apply (Rmult_le_reg_r (IZR a)); [exact A0|]. eapply Rle_trans; [exact H3|]. replace (e * W * IZR a) with (e * IZR a * W) by ring. apply Rmult_le_compat_r; lra.
  - apply (Rmult_lt_reg_r (IZR a')); [exact A1|]. eapply Rle_lt_trans; [|exact H4]. replace (e * W * IZR a') with (e * IZR a' * W) by ring. apply Rmult_le_compat_r; lra.
Qed.

(** Facts about pi(d) of fmath/pi.py. *)
From Coq Require Import ZArith List Bool Reals Lia Lra.
From Verif Require Import Model.Py Model.Pi Proofs.PiDigits Proofs.PiValue.
Import ListNotations.
Local Open Scope Z_scope.

Definition max_digits : Z := 50000.
Lemma len_general (s ds : list Z) n a b : s = a :: b :: ds -> length ds = n -> len s = Z.of_nat n + 2.
Proof. intros -> <-. unfold len. cbn [length]. lia. Qed.
Lemma nat_max : Z.of_nat 50000 = max_digits.
Proof. vm_cast_no_check (eq_refl max_digits). Qed.
Lemma len_text : len pi_string = max_digits + 2.
Proof. destruct pi_string_ok as (E & L & _). rewrite (len_general _ _ _ _ _ E L), nat_max. reflexivity. Qed.
Lemma len_digits : Z.of_nat (length digits) = max_digits.
Proof. destruct pi_string_ok as (_ & L & _). rewrite L. exact nat_max. Qed.
Lemma max_pos : 2 < max_digits.
Proof. reflexivity. Qed.

(** decimal value *)
Fixpoint dv (l : list Z) (acc : Z) : Z := match l with [] => acc | c :: l => dv l (10 * acc + (c - 48)) end.
Lemma int_aux_ok l : Forall is_digit l -> forall acc, int_aux l acc = Ok (dv l acc).
Proof.
  induction 1 as [|c l [H1 H2] F IH]; intros acc; cbn [int_aux dv]; [reflexivity|].
  replace (48 <=? c) with true by (symmetry; apply Z.leb_le; exact H1). replace (c <=? 57) with true by (symmetry; apply Z.leb_le; exact H2). apply IH.
Qed.
Lemma dv_fr l : forall acc, (IZR (dv l acc) = (IZR acc + fr l) * 10 ^ length l)%R.
Proof.
  induction l as [|c l IH]; intros acc; cbn [dv fr length pow]; [ring|]. rewrite IH, plus_IZR, mult_IZR. field.
Qed.
Lemma fr_app l r : (fr (l ++ r) = fr l + fr r / 10 ^ length l)%R.
Proof.
  induction l as [|c l IH]; cbn [app fr length pow]; [field|]. rewrite IH. field. apply pow_nonzero. lra.
Qed.
Lemma fr_range l : Forall is_digit l -> (0 <= fr l /\ fr l + / 10 ^ length l <= 1)%R.
Proof.
  induction 1 as [|c l [H1 H2] F [I1 I2]]; cbn [fr length pow]; [lra|].
  assert (D : (0 <= IZR (c - 48) <= 9)%R) by (split; apply IZR_le; lia).
  rewrite Rinv_mult. lra.
Qed.

Lemma skip_text : skipn 2 pi_string = digits.
Proof. unfold digits. exact eq_refl. Qed.
Lemma slice_ok d : 1 <= d <= max_digits -> py_slice pi_string 2 (d + 2) = firstn (Z.to_nat d) digits.
Proof.
  intros H. pose proof max_pos. unfold py_slice, py_index. rewrite len_text.
  replace (2 <? 0) with false by reflexivity. replace (d + 2 <? 0) with false by (symmetry; apply Z.ltb_ge; lia).
  replace (Z.max 0 (Z.min (max_digits + 2) 2)) with 2 by lia. replace (Z.max 0 (Z.min (max_digits + 2) (d + 2))) with (d + 2) by lia.
  unfold slice. replace (Z.to_nat (d + 2 - 2)) with (Z.to_nat d) by lia. change (Z.to_nat 2) with 2%nat. exact (f_equal (firstn (Z.to_nat d)) skip_text).
Qed.
Lemma firstn_digits d : 1 <= d <= max_digits -> Forall is_digit (firstn (Z.to_nat d) digits) /\ length (firstn (Z.to_nat d) digits) = Z.to_nat d.
Proof.
  intros H. destruct pi_string_ok as (_ & _ & D & _). split.
  - rewrite <- (firstn_skipn (Z.to_nat d) digits) in D. apply Forall_app in D. apply D.
  - rewrite firstn_length. pose proof len_digits. lia.
Qed.
Definition trunc (d : Z) : Z := dv (firstn (Z.to_nat d) digits) 3.
Lemma dv_acc l : forall acc, dv l acc = acc * 10 ^ Z.of_nat (length l) + dv l 0.
Proof.
  induction l as [|c l IH]; intros acc; cbn [dv length]; [change (10 ^ Z.of_nat 0) with 1; ring|]. rewrite IH, (IH (10 * 0 + _)), Nat2Z.inj_succ, Z.pow_succ_r by lia. ring.
Qed.
Lemma pi_frac_max : (3 + fr digits <= PI < 3 + fr digits + / IZR (10 ^ max_digits))%R.
Proof. exact pi_frac. Qed.
Lemma trunc_ok d : 1 <= d <= max_digits -> (IZR (trunc d) <= PI * IZR (10 ^ d) < IZR (trunc d) + 1)%R.
Proof.
  intros H. destruct (firstn_digits d H) as [F L]. unfold trunc. rewrite dv_fr, L.
  destruct pi_string_ok as (_ & _ & D & _). pose proof pi_frac_max as [P1 P2].
  assert (F2 : Forall is_digit (skipn (Z.to_nat d) digits)) by (rewrite <- (firstn_skipn (Z.to_nat d) digits) in D; apply Forall_app in D; apply D).
  pose proof (fr_app (firstn (Z.to_nat d) digits) (skipn (Z.to_nat d) digits)) as E. rewrite firstn_skipn, L in E.
  destruct (fr_range _ F2) as [R1 R2].
  assert (L2 : length (skipn (Z.to_nat d) digits) = Z.to_nat (max_digits - d)) by (rewrite skipn_length; pose proof len_digits; lia). rewrite L2 in R2.
  assert (E10 : (IZR (10 ^ max_digits) = 10 ^ Z.to_nat d * 10 ^ Z.to_nat (max_digits - d))%R).
  { rewrite <- pow_add. replace (Z.to_nat d + Z.to_nat (max_digits - d))%nat with (Z.to_nat max_digits) by lia.
    rewrite pow_IZR, Z2Nat.id by discriminate. reflexivity. }
  rewrite E10 in P2. rewrite E in P1, P2.
  assert (ED : (IZR (10 ^ d) = 10 ^ Z.to_nat d)%R) by (rewrite pow_IZR; rewrite Z2Nat.id by lia; reflexivity). rewrite ED.
  clear - P1 P2 R1 R2. assert (T1 : (0 < 10 ^ Z.to_nat d)%R) by (apply pow_lt; lra). assert (T2 : (0 < 10 ^ Z.to_nat (max_digits - d))%R) by (apply pow_lt; lra).
  generalize dependent (10 ^ Z.to_nat d)%R. generalize dependent (10 ^ Z.to_nat (max_digits - d))%R. intros b R2 T2 a P1 P2 T1.
  set (u := fr (firstn _ _)) in *. set (v := fr (skipn _ _)) in *. clearbody u v.
  split.
  - apply Rmult_le_compat_r; [lra|]. eapply Rle_trans; [|exact P1]. assert (0 <= v / a)%R by (apply Rmult_le_pos; [exact R1|left; apply Rinv_0_lt_compat; exact T1]). lra.
  - apply Rlt_le_trans with ((3 + (u + v / a) + / (a * b)) * a)%R; [apply Rmult_lt_compat_r; lra|].
    replace ((3 + (u + v / a) + / (a * b)) * a)%R with ((3 + u) * a + (v + / b))%R by (field; lra). lra.
Qed.

Lemma fraction_ok n d : 0 < d -> exists a b, fraction n d = Ok (a, b) /\ 0 < b /\ a * d = n * b /\ Z.gcd a b = 1.
Proof.
  intros D. unfold fraction. replace (d =? 0) with false by (symmetry; apply Z.eqb_neq; lia). rewrite Z.sgn_pos by exact D. rewrite Z.mul_1_l. cbv zeta.
  pose proof (Z.gcd_nonneg n d). assert (G0 : Z.gcd n d <> 0) by (intros E; apply Z.gcd_eq_0_r in E; lia).
  exists (n / Z.gcd n d), (d / Z.gcd n d). split; [reflexivity|].
  destruct (Z.gcd_divide_l n d) as [a Ea]. destruct (Z.gcd_divide_r n d) as [b Eb].
  assert (n / Z.gcd n d = a) by (rewrite Ea at 1; apply Z.div_mul; exact G0). assert (d / Z.gcd n d = b) by (rewrite Eb at 1; apply Z.div_mul; exact G0).
  split; [|split].
  - rewrite H1. nia.
  - rewrite H0, H1. rewrite Ea at 1. rewrite Eb at 1. ring.
  - apply Z.gcd_div_gcd; [exact G0|reflexivity].
Qed.
Lemma pi_some d : 1 <= d <= max_digits -> exists n m, pi (Some d) = Ok (n, m) /\ 0 < m /\ Z.gcd n m = 1 /\ n * 10 ^ d = trunc d * m.
Proof.
  intros H. pose proof max_pos as M. destruct (firstn_digits d H) as [F L]. unfold pi. rewrite len_text. cbv zeta. replace (max_digits + 2 - 2) with max_digits by ring.
  replace (d =? 0) with false by (symmetry; apply Z.eqb_neq; lia). replace (d <=? max_digits) with true by (symmetry; apply Z.leb_le; lia). cbn [py_assert bind].
  rewrite slice_ok by exact H. assert (P : py_int (firstn (Z.to_nat d) digits) = Ok (dv (firstn (Z.to_nat d) digits) 0)).
  { unfold py_int. rewrite <- int_aux_ok by exact F. destruct (firstn (Z.to_nat d) digits); [|reflexivity]. cbn in L. lia. }
  rewrite P. cbn [bind]. replace (d <? 0) with false by (symmetry; apply Z.ltb_ge; lia).
  assert (T0 : 0 < 10 ^ d) by (apply Z.pow_pos_nonneg; lia).
  destruct (fraction_ok (dv (firstn (Z.to_nat d) digits) 0) (10 ^ d) T0) as (a & b & -> & B0 & E & _). cbn [bind int_plus_fraction].
  destruct (fraction_ok (3 * b + a) b B0) as (n & m & -> & M0 & E2 & G). exists n, m. split; [reflexivity|]. split; [exact M0|]. split; [exact G|].
  unfold trunc. rewrite dv_acc, L, Z2Nat.id by lia.
  assert (b * (n * 10 ^ d) = b * ((3 * 10 ^ d + dv (firstn (Z.to_nat d) digits) 0) * m)); [|nia].
  transitivity ((n * b) * 10 ^ d); [ring|]. rewrite E2. transitivity ((3 * b * 10 ^ d + a * 10 ^ d) * m); [ring|]. rewrite E. ring.
Qed.

Lemma c79_digits : forall d, 1 <= d <= 50000 -> exists n m, pi (Some d) = Ok (n, m) /\ 0 < m /\ Z.gcd n m = 1 /\
  exists z, (IZR z <= PI * IZR (10 ^ d) < IZR z + 1)%R /\ n * 10 ^ d = z * m.
Proof.
  intros d H. change 50000 with max_digits in H. destruct (pi_some d H) as (n & m & E & M & G & T). exists n, m. split; [exact E|]. split; [exact M|]. split; [exact G|].
  exists (trunc d). split; [exact (trunc_ok d H)|exact T].
Qed.
Lemma c79_truncation : forall d e n m n' m', 1 <= d <= e -> e <= 50000 -> pi (Some d) = Ok (n, m) -> pi (Some e) = Ok (n', m') ->
  n * 10 ^ d = n' * 10 ^ d / m' * m.
Proof.
  intros d e n m n' m' H He E E'. change 50000 with max_digits in He. pose proof (trunc_ok d ltac:(lia)) as T. pose proof (trunc_ok e ltac:(lia)) as T'.
  destruct (pi_some d ltac:(lia)) as (n0 & m0 & E0 & M0 & _ & T0). destruct (pi_some e ltac:(lia)) as (n1 & m1 & E1 & M1 & _ & T1).
  rewrite E in E0. inversion E0; subst n0 m0. rewrite E' in E1. inversion E1; subst n1 m1. clear E0 E1 E E'. rewrite T0. f_equal.
  apply (Z.div_unique _ _ _ (n' * 10 ^ d - trunc d * m')); [|ring]. left.
  assert (P10 : 10 ^ e = 10 ^ d * 10 ^ (e - d)) by (rewrite <- Z.pow_add_r by lia; f_equal; ring).
  assert (D0 : 0 < 10 ^ d) by (apply Z.pow_pos_nonneg; lia). assert (D1 : 0 < 10 ^ (e - d)) by (apply Z.pow_pos_nonneg; lia).
  assert (B1 : trunc d * 10 ^ (e - d) <= trunc e < (trunc d + 1) * 10 ^ (e - d)).
  { rewrite P10, mult_IZR in T'. apply IZR_lt in D1 as D2. split.
    - apply Z.lt_succ_r. unfold Z.succ. apply lt_IZR. rewrite plus_IZR, mult_IZR. eapply Rle_lt_trans; [|apply T']. rewrite <- Rmult_assoc. apply Rmult_le_compat_r; [lra|apply T].
    - apply lt_IZR. rewrite mult_IZR, plus_IZR. eapply Rle_lt_trans; [apply T'|]. rewrite <- Rmult_assoc. apply Rmult_lt_compat_r; [exact D2|apply T]. }
  rewrite P10 in T1. clear - T1 B1 D0 D1 M1. generalize dependent (10 ^ d). generalize dependent (10 ^ (e - d)). intros b D1 B1 a T1 D0.
  assert (b * (n' * a) = trunc e * m') by (rewrite <- T1; ring). split.
  - assert (b * (trunc d * m') <= b * (n' * a)); [rewrite H|]; nia.
  - assert (b * (n' * a) < b * ((trunc d + 1) * m')); [rewrite H|]; nia.
Qed.
Lemma c79_default : pi None = pi (Some 50000) /\ pi (Some 0) = pi (Some 50000).
Proof.
  assert (E : pi None = pi (Some max_digits)).
  { unfold pi. rewrite len_text. cbv zeta. replace (max_digits + 2 - 2) with max_digits by ring. replace (max_digits =? 0) with false by reflexivity.
    rewrite Z.leb_refl. reflexivity. }
  split; [exact E|]. change 50000 with max_digits. rewrite <- E. unfold pi. change (0 =? 0) with true. cbv beta iota zeta. exact eq_refl.
Qed.
Lemma trunc_1 : trunc 1 = 31.
Proof. vm_cast_no_check (eq_refl 31). Qed.
Lemma c79_zero_refuted : exists n m, pi (Some 0) = Ok (n, m) /\ 0 < m /\ n <> 3 * m /\ 31 * m <= 10 * n.
Proof.
  destruct c79_default as [_ ->]. destruct (pi_some max_digits) as (n & m & E & M & _ & T); [split; [discriminate|apply Z.le_refl]|]. exists n, m.
  split; [exact E|]. split; [exact M|].
  destruct (pi_some 1) as (n1 & m1 & E1 & M1 & _ & T1); [split; [discriminate|discriminate]|].
  pose proof (c79_truncation 1 max_digits n1 m1 n m ltac:(split; discriminate) (Z.le_refl _) E1 E) as K. clear E T E1.
  rewrite trunc_1 in T1. rewrite T1 in K. change (10 ^ 1) with 10 in K. apply Z.mul_reg_r in K; [|clear - M1; lia].
  pose proof (Z.mul_div_le (n * 10) m M) as D. rewrite <- K in D. clear - D M. lia.
Qed.
Lemma c79_large : forall d, 50000 < d -> pi (Some d) = Raise AssertionError.
Proof.
  intros d H. change 50000 with max_digits in H. pose proof max_pos. unfold pi. rewrite len_text. cbv zeta. replace (max_digits + 2 - 2) with max_digits by ring.
  replace (d =? 0) with false by (symmetry; apply Z.eqb_neq; lia). replace (d <=? max_digits) with false by (symmetry; apply Z.leb_gt; lia). reflexivity.
Qed.
Lemma c79_negative : forall d, d < 0 ->
  pi (Some d) = Raise (if (d <=? -3) && (-50001 <=? d) then TypeError else ValueError).
Proof.
  intros d H. change (-50001) with (- max_digits - 1). pose proof max_pos as M. unfold pi. rewrite len_text. cbv zeta. replace (max_digits + 2 - 2) with max_digits by ring.
  replace (d =? 0) with false by (symmetry; apply Z.eqb_neq; lia). replace (d <=? max_digits) with true by (symmetry; apply Z.leb_le; lia). cbn [py_assert bind].
  replace (d <? 0) with true by (symmetry; apply Z.ltb_lt; lia).
  assert (S : exists j, py_slice pi_string 2 (d + 2) = firstn (Z.to_nat (j - 2)) digits /\ 0 <= j <= max_digits + 2 /\ (2 < j <-> d <= -3 /\ - max_digits - 1 <= d)).
  { exists (py_index (max_digits + 2) (d + 2)). split; [|split].
    - unfold py_slice. rewrite len_text. replace (py_index (max_digits + 2) 2) with 2 by (unfold py_index; change (2 <? 0) with false; cbv iota zeta; lia).
      unfold slice. change (Z.to_nat 2) with 2%nat. exact (f_equal _ skip_text).
    - unfold py_index. cbv zeta. lia.
    - unfold py_index. cbv zeta. destruct (Z.ltb_spec (d + 2) 0); lia. }
  destruct S as (j & -> & J & K). destruct pi_string_ok as (_ & _ & D & _). pose proof len_digits as LD.
  destruct (Z.ltb_spec 2 j) as [J2|J2].
  - apply K in J2 as [K1 K2]. replace (d <=? -3) with true by (symmetry; apply Z.leb_le; lia). replace (- max_digits - 1 <=? d) with true by (symmetry; apply Z.leb_le; lia).
    assert (F : Forall is_digit (firstn (Z.to_nat (j - 2)) digits)) by (rewrite <- (firstn_skipn (Z.to_nat (j - 2)) digits) in D; apply Forall_app in D; apply D).
    assert (L : length (firstn (Z.to_nat (j - 2)) digits) <> 0%nat) by (rewrite firstn_length; lia).
    unfold py_int. rewrite int_aux_ok by exact F. destruct (firstn (Z.to_nat (j - 2)) digits); [exfalso; apply L; reflexivity|]. reflexivity.
  - replace (Z.to_nat (j - 2)) with 0%nat by lia. change (firstn 0 digits) with (@nil Z). cbn [py_int bind].
    destruct (Z.leb_spec d (-3)); destruct (Z.leb_spec (- max_digits - 1) d); try reflexivity. exfalso. lia.
Qed.

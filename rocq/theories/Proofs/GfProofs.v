From Verif Require Import Proofs.Tac Proofs.Bits Model.Encoding Model.CmacSiv
  Spec.EncodingSpec Spec.CmacSivSpec Proofs.EncodingProofs Proofs.CmacSivProofs.
Local Open Scope Z_scope.

(** ** polynomials over GF(2) *)
Lemma pmul_0 b : pmul 0 b = 0. Proof. reflexivity. Qed.
Lemma pmul_1 b : pmul 1 b = b. Proof. reflexivity. Qed.
Lemma pmul_even a b : 0 <= a -> pmul (2 * a) b = 2 * pmul a b.
Proof. intros H. destruct a; [reflexivity|reflexivity|lia]. Qed.
Lemma pmul_odd a b : 0 <= a -> pmul (2 * a + 1) b = Z.lxor b (2 * pmul a b).
Proof. intros H. destruct a; [cbn [pmul]; now rewrite Z.mul_0_r, Z.lxor_0_r|reflexivity|lia]. Qed.

Lemma lxor_double a b : Z.lxor (2 * a) (2 * b) = 2 * Z.lxor a b.
Proof.
  rewrite !(Z.mul_comm 2). change 2 with (2 ^ 1). rewrite <- !Z.shiftl_mul_pow2 by lia.
  symmetry. apply Z.shiftl_lxor.
Qed.
Lemma lxor_odd_l a b : Z.lxor (2 * a + 1) (2 * b) = 2 * Z.lxor a b + 1.
Proof.
  apply Z.bits_inj'. intros i Hi. rewrite Z.lxor_spec.
  destruct (Z.eq_dec i 0) as [->|].
  - rewrite Z.testbit_odd_0, Z.testbit_even_0, Z.testbit_odd_0. reflexivity.
  - replace i with (Z.succ (i - 1)) by lia.
    rewrite !Z.testbit_odd_succ, Z.testbit_even_succ, Z.lxor_spec by lia. reflexivity.
Qed.
Lemma lxor_odd_odd a b : Z.lxor (2 * a + 1) (2 * b + 1) = 2 * Z.lxor a b.
Proof.
  apply Z.bits_inj'. intros i Hi. rewrite Z.lxor_spec.
  destruct (Z.eq_dec i 0) as [->|].
  - rewrite !Z.testbit_odd_0, Z.testbit_even_0. reflexivity.
  - replace i with (Z.succ (i - 1)) by lia.
    rewrite !Z.testbit_odd_succ, Z.testbit_even_succ, Z.lxor_spec by lia. reflexivity.
Qed.
Lemma lxor_odd_r a b : Z.lxor (2 * a) (2 * b + 1) = 2 * Z.lxor a b + 1.
Proof. rewrite Z.lxor_comm, lxor_odd_l, Z.lxor_comm. reflexivity. Qed.

Lemma lxor_nn a b : 0 <= a -> 0 <= b -> 0 <= Z.lxor a b.
Proof. intros. apply Z.lxor_nonneg. lia. Qed.

Lemma pmul_lxor_l c : forall (n : nat) a b, 0 <= a < 2 ^ Z.of_nat n -> 0 <= b < 2 ^ Z.of_nat n ->
  pmul (Z.lxor a b) c = Z.lxor (pmul a c) (pmul b c).
Proof.
  induction n as [|n IH]; intros a b Ha Hb.
  - cbn in Ha, Hb. replace a with 0 by lia. replace b with 0 by lia. reflexivity.
  - rewrite Nat2Z.inj_succ, Z.pow_succ_r in Ha, Hb by lia.
    assert (Ea : a = 2 * (a / 2) + a mod 2) by lia. assert (Eb : b = 2 * (b / 2) + b mod 2) by lia.
    specialize (IH (a / 2) (b / 2) ltac:(lia) ltac:(lia)).
    assert (Na : 0 <= a / 2) by lia. assert (Nb : 0 <= b / 2) by lia.
    pose proof (lxor_nn _ _ Na Nb) as Nab.
    rewrite Ea, Eb. set (x := a / 2) in *. set (y := b / 2) in *.
    assert (Ma : a mod 2 = 0 \/ a mod 2 = 1) by lia. assert (Mb : b mod 2 = 0 \/ b mod 2 = 1) by lia.
    destruct Ma as [-> | ->], Mb as [-> | ->]; rewrite ?Z.add_0_r.
    + rewrite lxor_double, !pmul_even, lxor_double by auto. now rewrite IH.
    + rewrite lxor_odd_r, pmul_odd, pmul_even, pmul_odd by auto. rewrite IH, <- lxor_double.
      apply Z.bits_inj'. intros i Hi. rewrite !Z.lxor_spec.
      destruct (Z.testbit c i), (Z.testbit (2 * pmul x c) i), (Z.testbit (2 * pmul y c) i); reflexivity.
    + rewrite lxor_odd_l, pmul_odd, pmul_even, pmul_odd by auto. rewrite IH, <- lxor_double.
      apply Z.bits_inj'. intros i Hi. rewrite !Z.lxor_spec.
      destruct (Z.testbit c i), (Z.testbit (2 * pmul x c) i), (Z.testbit (2 * pmul y c) i); reflexivity.
    + rewrite lxor_odd_odd, pmul_even, !pmul_odd by auto. rewrite IH, <- lxor_double.
      apply Z.bits_inj'. intros i Hi. rewrite !Z.lxor_spec.
      destruct (Z.testbit c i), (Z.testbit (2 * pmul x c) i), (Z.testbit (2 * pmul y c) i); reflexivity.
Qed.

Lemma below_pow2 a : 0 <= a -> exists n : nat, a < 2 ^ Z.of_nat n.
Proof. intros H. exists (Z.to_nat a). rewrite Z2Nat.id by auto. apply Z.pow_gt_lin_r; lia. Qed.

Lemma pmul_lxor a b c : 0 <= a -> 0 <= b -> pmul (Z.lxor a b) c = Z.lxor (pmul a c) (pmul b c).
Proof.
  intros Ha Hb. destruct (below_pow2 (a + b) ltac:(lia)) as [n Hn].
  apply (pmul_lxor_l c n); lia.
Qed.

Lemma pmul_lb b n : 0 <= n -> 2 ^ n <= b < 2 ^ (n + 1) -> forall q, 2 ^ n <= pmul_pos q b.
Proof.
  intros Hn [B1 B2].
  assert (G : forall q, exists k, 0 <= k /\ 2 ^ (n + k) <= pmul_pos q b < 2 ^ (n + k + 1)).
  { induction q as [q [k [K0 [K1 K2]]]|q [k [K0 [K1 K2]]]|].
    - exists (k + 1). split; [lia|]. cbn [pmul_pos].
      rewrite !Z.add_assoc, (Z.pow_add_r 2 (n + k + 1)), (Z.pow_add_r 2 (n + k)) by lia.
      rewrite (Z.pow_add_r 2 (n + k)) in K2 by lia. change (2 ^ 1) with 2 in *.
      set (P := pmul_pos q b) in *. set (W := 2 ^ (n + k)) in *.
      assert (HbW : 0 <= b < W * 2).
      { pose proof (Z.pow_pos_nonneg 2 n ltac:(lia) Hn). split; [lia|].
        unfold W. apply Z.lt_le_trans with (2 ^ (n + 1)); auto.
        rewrite !Z.pow_add_r by lia. change (2 ^ 1) with 2.
        assert (1 <= 2 ^ k) by (change 1 with (2 ^ 0); apply Z.pow_le_mono_r; lia). nia. }
      assert (HW : 0 < W) by (apply Z.pow_pos_nonneg; lia).
      assert (T : Z.testbit (Z.lxor b (2 * P)) (n + k + 1) = true).
      { rewrite Z.lxor_spec. rewrite (testbit_small b (n + k + 1)).
        - rewrite xorb_false_l. replace (n + k + 1) with (Z.succ (n + k)) by lia.
          rewrite Z.double_bits_succ. rewrite Z.testbit_true by lia. fold W.
          replace (P / W) with 1; [reflexivity|]. apply Z.div_unique with (P - W); lia.
        - rewrite Z.pow_add_r by lia. fold W. change (2 ^ 1) with 2. lia.
        - lia. }
      assert (N : 0 <= Z.lxor b (2 * P)) by (apply lxor_nn; lia).
      split.
      + destruct (Z.lt_ge_cases (Z.lxor b (2 * P)) (W * 2)) as [L|L]; [|exact L].
        rewrite (testbit_small (Z.lxor b (2 * P)) (n + k + 1)) in T; [discriminate| |lia].
        rewrite Z.pow_add_r by lia. fold W. change (2 ^ 1) with 2. lia.
      + assert (EW : 2 ^ (n + k + 1 + 1) = W * 2 * 2) by (rewrite !(Z.pow_add_r 2 _ 1) by lia; reflexivity).
        pose proof (lxor_lt_pow2 b (2 * P) (n + k + 1 + 1) ltac:(lia)) as L. rewrite EW in L.
        apply L; lia.
    - exists (k + 1). split; [lia|]. cbn [pmul_pos].
      rewrite !Z.add_assoc, (Z.pow_add_r 2 (n + k + 1)), (Z.pow_add_r 2 (n + k)) by lia.
      rewrite (Z.pow_add_r 2 (n + k)) in K2 by lia. change (2 ^ 1) with 2 in *. lia.
    - exists 0. cbn [pmul_pos]. rewrite !Z.add_0_r. lia. }
  intros q. destruct (G q) as [k [K0 [K1 _]]]. rewrite Z.pow_add_r in K1 by lia.
  assert (1 <= 2 ^ k) by (change 1 with (2 ^ 0); apply Z.pow_le_mono_r; lia).
  pose proof (Z.pow_pos_nonneg 2 n ltac:(lia) Hn). nia.
Qed.

(** the remainder is unique *)
Lemma pmod128_unique a r r' : pmod128 a r -> pmod128 a r' -> r = r'.
Proof.
  intros (R & q & Q & E) (R' & q' & Q' & E').
  assert (X : Z.lxor r r' = pmul (Z.lxor q q') gf128).
  { rewrite pmul_lxor by auto. rewrite <- E, <- E'. apply Z.bits_inj'. intros i Hi. rewrite !Z.lxor_spec.
    destruct (Z.testbit a i), (Z.testbit r i), (Z.testbit r' i); reflexivity. }
  pose proof (lxor_nn q q' Q Q') as N.
  pose proof (lxor_lt_pow2 r r' 128 ltac:(lia) R R') as B.
  destruct (Z.lxor q q') as [|p|p]; [|exfalso|lia].
  - apply Z.lxor_eq. exact X.
  - cbn [pmul] in X. pose proof (pmul_lb gf128 128 ltac:(lia) ltac:(split; [discriminate|reflexivity]) p). lia.
Qed.

Lemma high_bit v : 2 ^ 127 <= v < 2 ^ 128 -> 2 * v = Z.lxor (2 * v - 2 ^ 128) (2 ^ 128).
Proof.
  intros H. set (w := 2 * v - 2 ^ 128). replace (2 * v) with (2 ^ 128 + w) by (unfold w; lia).
  assert (Hw : 0 <= w < 2 ^ 128).
  { unfold w. change (2 ^ 127) with 170141183460469231731687303715884105728 in *.
    change (2 ^ 128) with 340282366920938463463374607431768211456 in *. lia. }
  rewrite Z.lxor_comm. apply Z.add_nocarry_lxor.
  apply Z.bits_inj'. intros i Hi. rewrite Z.land_spec, Z.pow2_bits_eqb, Z.bits_0 by lia.
  destruct (128 =? i) eqn:E; [|reflexivity]. apply Z.eqb_eq in E. subst i.
  now rewrite (testbit_small w 128) by lia.
Qed.

Lemma dblv_mod v : 0 <= v < 2 ^ 128 -> pmod128 (pmul 2 v) (dblv v).
Proof.
  intros Hv. split; [now apply dblv_range|]. change (pmul 2 v) with (2 * v). unfold dblv.
  destruct (v <? 2 ^ 127) eqn:E.
  - exists 0. split; [lia|]. now rewrite Z.lxor_nilpotent.
  - exists 1. split; [lia|]. rewrite pmul_1. rewrite (high_bit v) at 1 by lia.
    set (w := 2 * v - 2 ^ 128). change gf128 with (Z.lxor (2 ^ 128) 135).
    apply Z.bits_inj'. intros i Hi. rewrite !Z.lxor_spec.
    destruct (Z.testbit w i), (Z.testbit (2 ^ 128) i), (Z.testbit 135 i); reflexivity.
Qed.

Lemma dblv_char v r : 0 <= v < 2 ^ 128 -> (r = dblv v <-> pmod128 (pmul 2 v) r).
Proof.
  intros Hv. split; [intros ->; now apply dblv_mod|].
  intros H. eapply pmod128_unique; [exact H|now apply dblv_mod].
Qed.

Lemma dblv_lxor u v : 0 <= u < 2 ^ 128 -> 0 <= v < 2 ^ 128 ->
  dblv (Z.lxor u v) = Z.lxor (dblv u) (dblv v).
Proof.
  intros Hu Hv. symmetry. apply dblv_char; [apply lxor_lt_pow2; auto; lia|].
  destruct (dblv_mod u Hu) as (R & q & Q & E). destruct (dblv_mod v Hv) as (R' & q' & Q' & E').
  split; [apply lxor_lt_pow2; auto; lia|]. exists (Z.lxor q q'). split; [now apply lxor_nn|].
  rewrite pmul_lxor by auto. rewrite <- E, <- E'.
  change (pmul 2 u) with (2 * u). change (pmul 2 v) with (2 * v). change (pmul 2 (Z.lxor u v)) with (2 * Z.lxor u v).
  rewrite <- lxor_double.
  apply Z.bits_inj'. intros i Hi. rewrite !Z.lxor_spec.
  destruct (Z.testbit (2 * u) i), (Z.testbit (2 * v) i), (Z.testbit (dblv u) i), (Z.testbit (dblv v) i); reflexivity.
Qed.

Lemma dblv_0 u : 0 <= u < 2 ^ 128 -> dblv u = 0 -> u = 0.
Proof.
  intros Hu H. unfold dblv in H. destruct (u <? 2 ^ 127) eqn:E; [lia|].
  apply Z.lxor_eq in H. change (2 ^ 128) with (2 * 2 ^ 127) in H. lia.
Qed.

Lemma dblv_inj u v : 0 <= u < 2 ^ 128 -> 0 <= v < 2 ^ 128 -> dblv u = dblv v -> u = v.
Proof.
  intros Hu Hv H. apply Z.lxor_eq. apply dblv_0; [apply lxor_lt_pow2; auto; lia|].
  rewrite dblv_lxor by auto. rewrite H. apply Z.lxor_nilpotent.
Qed.

(** ** the same on octet strings *)
Lemma be_value_xor a : forall b, octets a -> octets b -> length a = length b ->
  be_value 256 (xor_zip a b) = Z.lxor (be_value 256 a) (be_value 256 b).
Proof.
  induction a as [|x a IH]; intros [|y b] Ha Hb L; try discriminate; [reflexivity|].
  cbn [xor_zip be_value]. inversion Ha as [|? ? Hx Ha']; inversion Hb as [|? ? Hy Hb']; subst.
  cbn [length] in L. injection L as L. rewrite IH by auto.
  pose proof (be_value_bound 256 a ltac:(lia) Ha') as Ba.
  pose proof (be_value_bound 256 b ltac:(lia) Hb') as Bb.
  assert (LX : length (xor_zip a b) = length a).
  { pose proof (xor_zip_len a b) as Q. unfold len in Q. lia. }
  rewrite LX, <- L. unfold len in Ba, Bb. rewrite <- L in Bb.
  replace (256 ^ Z.of_nat (length a)) with (2 ^ (8 * Z.of_nat (length a))) in * by (rewrite Z.pow_mul_r by lia; reflexivity).
  set (n := 8 * Z.of_nat (length a)) in *. assert (Hn : 0 <= n) by lia.
  rewrite <- (lor_disjoint_add x) by auto. rewrite <- (lor_disjoint_add y) by auto.
  rewrite <- (lor_disjoint_add (Z.lxor x y)) by (auto; apply lxor_lt_pow2; auto).
  rewrite <- !Z.shiftl_mul_pow2 by auto.
  apply Z.bits_inj'. intros i Hi. rewrite !Z.lxor_spec, !Z.lor_spec, !Z.lxor_spec.
  rewrite !Z.shiftl_spec by auto. rewrite Z.lxor_spec.
  destruct (Z.lt_ge_cases i n) as [I|I].
  - rewrite !(Z.testbit_neg_r _ (i - n)) by lia. reflexivity.
  - rewrite (testbit_small _ n i Ba), (testbit_small _ n i Bb) by lia. cbn [xorb].
    rewrite !orb_false_r. reflexivity.
Qed.

Lemma gf_double_char s r : octets s -> len s = 16 -> octets r -> len r = 16 ->
  (r = gf_double s <-> pmod128 (pmul 2 (be_value 256 s)) (be_value 256 r)).
Proof.
  intros Hs Ls Hr Lr. rewrite <- (dblv_char _ _ (str16_range s Hs Ls)). split.
  - intros ->. now apply gf_double_value.
  - intros H. rewrite gf_double_eq, <- H. symmetry. apply be_octets_unique; auto. unfold len in Lr. lia.
Qed.

Lemma gf_double_xor a b : octets a -> len a = 16 -> octets b -> len b = 16 ->
  gf_double (xor_zip a b) = xor_zip (gf_double a) (gf_double b).
Proof.
  intros Ha La Hb Lb.
  destruct (octets16_xor a b Ha Hb La Lb) as [O L].
  destruct (gf_double_ok a) as [La' Oa']. destruct (gf_double_ok b) as [Lb' Ob'].
  destruct (octets16_xor _ _ Oa' Ob' La' Lb') as [O' L'].
  destruct (gf_double_ok (xor_zip a b)) as [L'' O''].
  apply (be_value_inj 256); [lia|unfold len in *; lia|exact O''|exact O'|].
  rewrite gf_double_value, !be_value_xor, !gf_double_value by (auto; unfold len in *; lia).
  apply dblv_lxor; apply str16_range; auto.
Qed.

Lemma gf_double_inj a b : octets a -> len a = 16 -> octets b -> len b = 16 ->
  gf_double a = gf_double b -> a = b.
Proof.
  intros Ha La Hb Lb H. apply (be_value_inj 256); [lia|unfold len in *; lia|exact Ha|exact Hb|].
  apply dblv_inj; try (apply str16_range; auto). rewrite <- !gf_double_value by auto. now rewrite H.
Qed.

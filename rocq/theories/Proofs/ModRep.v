(** Residues modulo N held as limbs, read modulo any prime divisor of N. *)
From Coq Require Import ZArith List Bool Lia Znumtheory Zpow_facts Uint63.
From Verif Require Import Proofs.Cong Proofs.Limbs.
Local Open Scope Z_scope.

(** limbs of a number *)
Fixpoint lm_of (k : nat) (z : Z) : lm :=
  match k with
  | O => N
  | S k => L (of_Z (Z.land z (B - 1))) (lm_of k (Z.shiftr z 30))
  end.
Lemma lm_of_ok k : forall z, 0 <= z -> good k (lm_of k z) /\ val (lm_of k z) = z mod B ^ Z.of_nat k.
Proof.
  induction k as [|k IH]; intros z Hz.
  - cbn. rewrite Z.mod_1_r. split; [exact I|reflexivity].
  - cbn [lm_of good val]. change (B - 1) with (Z.ones 30). rewrite Z.land_ones, Z.shiftr_div_pow2 by lia. change (2 ^ 30) with B.
    assert (E : to_Z (of_Z (z mod B)) = z mod B).
    { rewrite of_Z_spec. apply Z.mod_small. rewrite wB_val. pose proof (Z.mod_pos_bound z B). lia. }
    destruct (IH (z / B)) as [G V]; [apply Z.div_pos; lia|]. rewrite E, V. split; [split; [apply Z.mod_pos_bound; lia|exact G]|].
    rewrite Bk_S. symmetry. apply Z.rem_mul_r; [lia|]. pose proof (Bk_pos k). lia.
Qed.
Lemma lm_of_val k z : 0 <= z < B ^ Z.of_nat k -> good k (lm_of k z) /\ val (lm_of k z) = z.
Proof. intros [H1 H2]. destruct (lm_of_ok k z H1) as [G V]. split; [exact G|]. rewrite V. apply Z.mod_small. lia. Qed.
Lemma lm_of_good k : forall z, good k (lm_of k z).
Proof.
  induction k as [|k IH]; intros z; cbn [lm_of good]; [exact I|]. split; [|apply IH].
  change (B - 1) with (Z.ones 30). rewrite Z.land_ones by lia. change (2 ^ 30) with B. rewrite of_Z_spec, Z.mod_small;
  [|rewrite wB_val]; pose proof (Z.mod_pos_bound z B); lia.
Qed.

(** a modulus: its limbs, the negated inverse of its lowest limb, zero, 32 times the modulus, R^2 mod N *)
Record modulus := Modulus { m_n : lm; m_i : int; m_zs : lm; m_big : lm; m_r2 : lm; m_raw : lm; m_one : lm }.
Definition mul (M : modulus) (a b : lm) : lm := mont (m_n M) (m_i M) (m_zs M) a b.
Definition add (a b : lm) : lm := addl a b 0%uint63.
Definition sub (M : modulus) (a b : lm) : lm := subl (m_big M) a b 1%uint63.
Definition eqm (M : modulus) (a b : lm) : bool := eql a b || eql a (add b (m_n M)) || eql (add a (m_n M)) b.
Definition make (k : nat) (z r2 : Z) (i : int) : modulus :=
  let n := lm_of k z in let zs := zeros k in let r2 := lm_of k r2 in let raw := lm_of k 1 in
  Modulus n i zs (lm_of k (32 * z)) r2 raw (mont n i zs raw r2).
(** negated inverse of the lowest limb modulo 2^30, by Newton's iteration *)
Definition ninv (l : lm) : int :=
  match l with
  | N => 0%uint63
  | L x _ => let s := fun y => (y * (2 - x * y))%uint63 in ((Bi - s (s (s (s (s 1)))) mod Bi) mod Bi)%uint63
  end.
Definition make' (k : nat) (z r2 : Z) : modulus := make k z r2 (ninv (lm_of k z)).
Definition modulus_ok (k : nat) (z r2 : Z) : bool :=
  let M := make' k z r2 in
  (0 <? z) && (0 <=? r2) && (Z.log2 z + 14 <=? 30 * Z.of_nat k) && (Z.log2 r2 <=? Z.log2 z) &&
  match k with O => false | _ => true end &&
  match m_n M with L x _ => ((x * m_i M) mod Bi =? Mi)%uint63 | N => false end &&
  eqm M (mul M (mul M (m_r2 M) (m_raw M)) (m_raw M)) (m_raw M).

Section Rep.
Context (k : nat) (z r2 : Z) (OK : modulus_ok (S k) z r2 = true) (q : Z) (Hq : prime q) (Dq : (q | z)).
Let M := make' (S k) z r2.
Local Notation R := (B ^ Z.of_nat (S k)).

Lemma log_le u : 0 < u -> Z.log2 u + 14 <= 30 * Z.of_nat (S k) -> 8192 * u < R.
Proof.
  intros Hu H. pose proof (Z.log2_spec u Hu) as [_ H2].
  replace R with (2 ^ (30 * Z.of_nat (S k))) by (change B with (2 ^ 30); rewrite <- Z.pow_mul_r; lia).
  assert (2 ^ (Z.log2 u + 14) <= 2 ^ (30 * Z.of_nat (S k))) by (apply Z.pow_le_mono_r; lia).
  replace (Z.log2 u + 14) with (Z.succ (Z.log2 u) + 13) in H0 by lia. pose proof (Z.log2_nonneg u). rewrite Z.pow_add_r in H0 by lia. change (2 ^ 13) with 8192 in H0. lia.
Qed.
Lemma ok_parts : 0 < z /\ 0 <= r2 < 2 * z /\ 8192 * z < R /\
  (match m_n M with L x _ => ((x * m_i M) mod Bi =? Mi)%uint63 | N => false end) = true /\
  eqm M (mul M (mul M (m_r2 M) (m_raw M)) (m_raw M)) (m_raw M) = true.
Proof.
  pose proof OK as H. unfold modulus_ok in H. cbv zeta in H. fold M in H. rewrite !andb_true_iff in H. destruct H as ((((((H1 & H2) & H3) & H4) & _) & H6) & H7).
  apply Z.ltb_lt in H1. apply Z.leb_le in H2, H3, H4. pose proof (log_le z H1 H3). repeat split; try assumption.
  destruct (Z.eq_dec r2 0) as [->|N]; [lia|]. pose proof (Z.log2_spec r2 ltac:(lia)) as [_ A]. pose proof (Z.log2_spec z H1) as [C _].
  assert (2 ^ Z.succ (Z.log2 r2) <= 2 ^ Z.succ (Z.log2 z)) by (apply Z.pow_le_mono_r; lia). rewrite (Z.pow_succ_r _ (Z.log2 z)) in H0 by apply Z.log2_nonneg. lia.
Qed.
Lemma z_pos : 0 < z. Proof. apply ok_parts. Qed.
Lemma n_ok : good (S k) (m_n M) /\ val (m_n M) = z.
Proof. destruct ok_parts as (H1 & _ & H2 & _). apply lm_of_val. lia. Qed.
Lemma big_ok : good (S k) (m_big M) /\ val (m_big M) = 32 * z.
Proof. destruct ok_parts as (H1 & _ & H2 & _). apply lm_of_val. lia. Qed.
Lemma r2_ok : good (S k) (m_r2 M) /\ val (m_r2 M) = r2.
Proof. destruct ok_parts as (H1 & H3 & H2 & _). apply lm_of_val. lia. Qed.
Lemma raw_ok : good (S k) (m_raw M) /\ val (m_raw M) = 1.
Proof. destruct ok_parts as (H1 & _ & H2 & _). apply lm_of_val. lia. Qed.
Lemma inv_ok : (val (m_n M) * to_Z (m_i M)) mod B = B - 1.
Proof.
  destruct ok_parts as (_ & _ & _ & H & _). destruct n_ok as [G _]. destruct (m_n M) as [|x r]; [discriminate|]. apply eqb_correct in H.
  apply (f_equal to_Z) in H. rewrite mod_B, mul_spec, phi_M in H. rewrite <- H. cbn [val].
  rewrite Z.mul_add_distr_r, <- Z.mul_assoc, (Z.mul_comm B), Z_mod_plus_full.
  rewrite wB_val. replace (8 * (B * (B * 1))) with (B * (8 * B)) by ring. rewrite Z.rem_mul_r by lia. rewrite (Z.mul_comm B (_ mod _)), Z_mod_plus_full, Z.mod_mod by lia. reflexivity.
Qed.
Lemma q_pos : 1 < q. Proof. clear - Hq. destruct Hq. lia. Qed.
Lemma q_odd : ~ (q | R).
Proof.
  intros H. assert (D : (q | B)).
  { change B with (2 ^ 30) in H. rewrite <- Z.pow_mul_r in H by lia. assert (q = 2) by (apply (prime_power_prime q 2 (30 * Z.of_nat (S k))); [lia|exact Hq|exact prime_2|exact H]). subst q. exists (2 ^ 29). reflexivity. }
  pose proof inv_ok as E. rewrite (proj2 n_ok) in E.
  assert (D1 : (q | 1)).
  { pose proof (Z.div_mod (z * to_Z (m_i M)) B ltac:(lia)) as F. rewrite E in F.
    replace 1 with (B * (z * to_Z (m_i M) / B) + B - z * to_Z (m_i M)) by lia.
    apply Z.divide_sub_r; [apply Z.divide_add_r; [apply Z.divide_mul_l|]; exact D|apply Z.divide_mul_l; exact Dq]. }
  pose proof q_pos. apply Z.divide_pos_le in D1; lia.
Qed.
Lemma cancel_R u v : cong q (u * R) (v * R) -> cong q u v.
Proof.
  pose proof q_pos. rewrite !cong_divide by lia. rewrite <- Z.mul_sub_distr_r. intros D. apply prime_mult in D; [|exact Hq].
  destruct D as [D|D]; [exact D|]. destruct (q_odd D).
Qed.
Lemma zq : cong q z 0. Proof. clear - Hq Dq. pose proof q_pos. apply cong_divide; [lia|]. rewrite Z.sub_0_r. exact Dq. Qed.

(** x holds the residue u, with val x < c N *)
Definition rep (c : Z) (x : lm) (u : Z) : Prop := good (S k) x /\ val x < c * z /\ cong q (val x) (u * R).

Lemma mul_raw a b : good (S k) a -> good (S k) b -> val b <= 8191 * z ->
  good (S k) (mul M a b) /\ cong q (val (mul M a b) * R) (val a * val b) /\ val (mul M a b) * R < val a * val b + R * z.
Proof.
  intros Ga Gb Hb. destruct ok_parts as (H1 & _ & H2 & _). destruct n_ok as [Gn Vn].
  destruct (mont_ok k (m_n M) (m_i M) Gn inv_ok a b) as [G (mm & Hm & E)]; try assumption; try (rewrite Vn; lia).
  change (mont (m_n M) (m_i M) (zeros (S k)) a b) with (mul M a b) in *. rewrite Vn in E. split; [exact G|]. split.
  - rewrite E. rewrite zq, Z.mul_0_r, Z.add_0_r. reflexivity.
  - rewrite E. assert (mm * z < R * z) by (apply Z.mul_lt_mono_pos_r; lia). lia.
Qed.
Lemma rep_mul c d x y u v : rep c x u -> rep d y v -> c * d <= 8192 -> 0 <= c -> d <= 8191 -> rep 2 (mul M x y) (u * v).
Proof.
  intros (Gx & Bx & Cx) (Gy & By & Cy) Hcd Hc Hd. pose proof z_pos as Hz. destruct (mul_raw x y Gx Gy) as (G & C & U); [nia|].
  split; [exact G|]. split.
  - destruct ok_parts as (_ & _ & H2 & _). pose proof (val_nonneg x). pose proof (val_nonneg y).
    assert (val x * val y <= (c * z) * (d * z)) by (apply Z.mul_le_mono_nonneg; lia).
    assert ((c * z) * (d * z) <= 8192 * z * z) by nia. assert (8192 * z * z <= R * z) by nia. nia.
  - apply cancel_R. rewrite C, Cx, Cy. apply cong_refl_eq. ring.
Qed.
Lemma rep_add c d x y u v : rep c x u -> rep d y v -> c + d <= 8192 -> rep (c + d) (add x y) (u + v).
Proof.
  intros (Gx & Bx & Cx) (Gy & By & Cy) Hcd. destruct ok_parts as (H1 & _ & H2 & _).
  destruct (addl_ok (S k) x y 0%uint63 Gx Gy) as [G (e & He & E)]; [change (to_Z 0%uint63) with 0; lia|]. change (to_Z 0%uint63) with 0 in E. fold (add x y) in *.
  assert (e = 0) by (pose proof (val_nonneg (add x y)); nia). subst e. rewrite Z.mul_0_l, !Z.add_0_r in E.
  split; [exact G|]. split; [lia|]. rewrite E, Cx, Cy. apply cong_refl_eq. ring.
Qed.
Lemma rep_sub c d x y u v : rep c x u -> rep d y v -> c + 32 <= 8192 -> d <= 32 -> rep (c + 32) (sub M x y) (u - v).
Proof.
  intros (Gx & Bx & Cx) (Gy & By & Cy) Hcd Hd. destruct ok_parts as (H1 & _ & H2 & _). destruct big_ok as [Gb Vb].
  destruct (subl_ok (S k) (m_big M) x y 1%uint63 Gb Gx Gy) as [G (e & E)]; [change (to_Z 1%uint63) with 1; lia|]. change (to_Z 1%uint63) with 1 in E. fold (sub M x y) in *. rewrite Vb in E.
  pose proof (val_nonneg (sub M x y)). pose proof (val_nonneg x). pose proof (good_val _ _ G).
  assert (val y < 32 * z) by nia. assert (val x + 32 * z < R) by nia. pose proof (val_nonneg y).
  assert (e = 1) by (generalize dependent R; intros; nia). subst e.
  assert (E' : val (sub M x y) = val x + 32 * z - val y) by lia.
  split; [exact G|]. split; [pose proof (val_nonneg y); lia|]. rewrite E', zq, Cx, Cy. apply cong_refl_eq. ring.
Qed.
Lemma rep_le c d x u : rep c x u -> c <= d -> rep d x u.
Proof. intros (G & H & C) L. pose proof z_pos. split; [exact G|]. split; [nia|exact C]. Qed.
Lemma rep_cong c x u v : rep c x u -> cong q u v -> rep c x v.
Proof. intros (G & H & C) L. split; [exact G|]. split; [exact H|]. rewrite <- L. exact C. Qed.
Lemma rep_zero : rep 1 (m_zs M) 0.
Proof. destruct (good_zero (S k)) as [G V]. split; [exact G|]. change (m_zs M) with (zeros (S k)). rewrite V. pose proof z_pos. split; [lia|reflexivity]. Qed.

Lemma addn_ok x : good (S k) x -> val x <= 8191 * z -> cong q (val (add x (m_n M))) (val x).
Proof.
  intros Gx Hx. destruct n_ok as [Gn Vn]. destruct ok_parts as (H1 & _ & H2 & _).
  destruct (addl_ok (S k) x (m_n M) 0%uint63 Gx Gn) as [G (e & He & E)]; [change (to_Z 0%uint63) with 0; lia|]. change (to_Z 0%uint63) with 0 in E. fold (add x (m_n M)) in *.
  rewrite Vn in E. assert (e = 0) by (pose proof (val_nonneg (add x (m_n M))); nia). subst e. replace (val (add x (m_n M))) with (val x + z) by lia. rewrite zq, Z.add_0_r. reflexivity.
Qed.
Lemma eqm_raw x y : good (S k) x -> val x <= 8191 * z -> good (S k) y -> val y <= 8191 * z -> eqm M x y = true -> cong q (val x) (val y).
Proof.
  intros Gx Hx Gy Hy H. unfold eqm in H. rewrite !orb_true_iff in H. destruct H as [[H|H]|H]; apply eql_ok in H.
  - now rewrite H.
  - rewrite H. apply addn_ok; assumption.
  - rewrite <- H. symmetry. apply addn_ok; assumption.
Qed.
Lemma rep_eqm c d x y u v : rep c x u -> rep d y v -> c <= 8191 -> d <= 8191 -> eqm M x y = true -> cong q u v.
Proof.
  intros (Gx & Bx & Cx) (Gy & By & Cy) Hc Hd E. pose proof z_pos. apply cancel_R. rewrite <- Cx, <- Cy. apply eqm_raw; try assumption; nia.
Qed.
Lemma r2_cong : cong q r2 (R * R).
Proof.
  destruct ok_parts as (H1 & H3 & H2 & _ & E). destruct r2_ok as [G2 V2]. destruct raw_ok as [G1 V1].
  destruct (mul_raw (m_r2 M) (m_raw M) G2 G1) as (Ga & Ca & Ba); [lia|].
  destruct (mul_raw (mul M (m_r2 M) (m_raw M)) (m_raw M) Ga G1) as (Gb & Cb & Bb); [lia|].
  apply eqm_raw in E; try assumption; [|rewrite V1, V2 in *; nia|lia].
  rewrite V1, Z.mul_1_r in *. rewrite V2 in Ca. rewrite <- Ca, <- Cb, E. apply cong_refl_eq. ring.
Qed.
(** conversion of a plain number *)
Definition conv (M : modulus) (k : nat) (u : Z) : lm := mul M (lm_of k u) (m_r2 M).
Lemma rep_raw x : good (S k) x -> rep 3 (mul M x (m_r2 M)) (val x).
Proof.
  intros Gx. destruct ok_parts as (H1 & H3 & H2 & _). destruct r2_ok as [G2 V2]. destruct (mul_raw x (m_r2 M) Gx G2) as (Ga & Ca & Ba); [lia|].
  split; [exact Ga|]. split.
  - rewrite V2 in Ba. pose proof (good_val _ _ Gx). pose proof (val_nonneg x). nia.
  - apply cancel_R. rewrite Ca, V2, r2_cong. apply cong_refl_eq. ring.
Qed.
Lemma rep_conv u : 0 <= u < R -> rep 3 (conv M (S k) u) u.
Proof. intros H. destruct (lm_of_val (S k) u H) as [G V]. rewrite <- V at 2. apply rep_raw. exact G. Qed.
Lemma conv_some u : exists v, rep 3 (conv M (S k) u) v.
Proof. eexists. apply rep_raw. apply lm_of_good. Qed.
Lemma rep_one : rep 3 (m_one M) 1.
Proof. destruct raw_ok as [G V]. rewrite <- V. apply (rep_raw (m_raw M) G). Qed.
(** a unit, shown by a witness *)
Lemma unit_witness c x u w : rep c x u -> 3 * c <= 8192 -> 0 <= c -> eqm M (mul M x (conv M (S k) w)) (m_one M) = true -> u mod q <> 0.
Proof.
  intros Hx Hc Hc0 E F. destruct (conv_some w) as [v Hv].
  pose proof (rep_mul _ _ _ _ _ _ Hx Hv) as Hm. specialize (Hm ltac:(lia) Hc0 ltac:(lia)).
  pose proof (rep_eqm _ _ _ _ _ _ Hm rep_one ltac:(lia) ltac:(lia) E) as C.
  assert (Z0 : cong q u 0) by (apply Cong; rewrite F; reflexivity). rewrite Z0, Z.mul_0_l in C. pose proof q_pos. apply uncong in C. rewrite Z.mod_0_l, Z.mod_small in C; lia.
Qed.
End Rep.

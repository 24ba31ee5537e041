(** The Jacobi symbol and its computation (C44). *)
From Coq Require Import Znumtheory.
From Verif Require Import Proofs.Tac Model.NumberTheory Spec.NumberSpec Proofs.Legendre.
Local Open Scope Z_scope.

Definition odd_prime (p : Z) := prime p /\ p mod 2 = 1.
(** product of the Legendre symbols *)
Definition jz (ps : list Z) (a : Z) : Z := product (map (fun p => lz p a) ps).
(** the sign of the reciprocity law *)
Definition sg (m n : Z) : Z := if (m mod 4 =? 3) && (n mod 4 =? 3) then -1 else 1.

Lemma product_cons x l : product (x :: l) = x * product l. Proof. reflexivity. Qed.
Lemma odd_mul a b : (a * b) mod 2 = 1 -> a mod 2 = 1 /\ b mod 2 = 1.
Proof. rewrite Zmult_mod. intros H. assert (A := Z.mod_pos_bound a 2). assert (B := Z.mod_pos_bound b 2).
  assert (a mod 2 = 0 \/ a mod 2 = 1) as [E|E] by lia; rewrite E in H; cbn in H; [discriminate|].
  assert (b mod 2 = 0 \/ b mod 2 = 1) as [F|F] by lia; rewrite F in H; cbn in H; [discriminate|]. auto.
Qed.
Lemma mul_odd a b : a mod 2 = 1 -> b mod 2 = 1 -> (a * b) mod 2 = 1.
Proof. intros A B. rewrite Zmult_mod, A, B. reflexivity. Qed.
Lemma product_odd ps : Forall odd_prime ps -> product ps mod 2 = 1.
Proof. induction 1 as [|p ps [Hp Ho] _ IH]; [reflexivity|]. rewrite product_cons. now apply mul_odd. Qed.
Lemma mod4 a : a mod 2 = 1 -> a mod 4 = 1 \/ a mod 4 = 3.
Proof. intros. Z.to_euclidean_division_equations. lia. Qed.
Lemma mod8 a : a mod 2 = 1 -> a mod 8 = 1 \/ a mod 8 = 3 \/ a mod 8 = 5 \/ a mod 8 = 7.
Proof. intros. Z.to_euclidean_division_equations. lia. Qed.
Lemma sg_mul_l a b n : a mod 2 = 1 -> b mod 2 = 1 -> sg (a * b) n = sg a n * sg b n.
Proof.
  intros A B. unfold sg. rewrite Zmult_mod. destruct (mod4 a A) as [-> | ->], (mod4 b B) as [-> | ->]; cbn; destruct (n mod 4 =? 3); reflexivity.
Qed.
Lemma sg_comm a b : sg a b = sg b a.
Proof. unfold sg. now rewrite andb_comm. Qed.
Lemma sg_mul_r a b n : a mod 2 = 1 -> b mod 2 = 1 -> sg n (a * b) = sg n a * sg n b.
Proof. intros. rewrite !(sg_comm n). now apply sg_mul_l. Qed.

Lemma jz_cons p ps a : jz (p :: ps) a = lz p a * jz ps a. Proof. reflexivity. Qed.
Lemma jz_mul ps a b : Forall odd_prime ps -> jz ps (a * b) = jz ps a * jz ps b.
Proof.
  induction 1 as [|p ps [Hp Ho] _ IH]; [reflexivity|]. rewrite !jz_cons, IH, (lz_mul Hp Ho). ring.
Qed.
Lemma jz_1 ps : Forall odd_prime ps -> jz ps 1 = 1.
Proof. induction 1 as [|p ps [Hp Ho] _ IH]; [reflexivity|]. now rewrite jz_cons, IH, (lz_1 Hp). Qed.
Lemma jz_mod ps a b : Forall odd_prime ps -> (product ps | a - b) -> jz ps a = jz ps b.
Proof.
  induction 1 as [|p ps [Hp Ho] _ IH]; intros D; [reflexivity|]. rewrite product_cons in D. rewrite !jz_cons. f_equal.
  - apply (lz_mod Hp). assert (P2 := prime_ge_2 p Hp). assert (D1 : (p | a - b)) by (eapply Z.divide_trans; [|exact D]; exists (product ps); ring).
    apply Zdivide_mod in D1. rewrite <- (Z.add_0_r b), <- D1, Zplus_mod_idemp_r. f_equal. ring.
  - apply IH. eapply Z.divide_trans; [|exact D]. exists p. ring.
Qed.
Lemma jz_0 ps a : Forall odd_prime ps -> product ps <> 1 -> (product ps | a) -> jz ps a = 0.
Proof.
  intros F N D. inversion F as [|p t [Hp Ho] Ht]; subst; [now elim N|]. rewrite jz_cons, lz_0; [ring|].
  apply Zdivide_mod. eapply Z.divide_trans; [|exact D]. exists (product t). rewrite product_cons. ring.
Qed.
(** reciprocity for a prime and a list *)
Lemma jz_rec1 p qs : odd_prime p -> Forall odd_prime qs -> jz qs p = sg p (product qs) * lz p (product qs).
Proof.
  intros [Hp Op]. induction 1 as [|q qs [Hq Oq] Hqs IH].
  - rewrite (lz_1 Hp : lz p (product []) = 1). unfold sg. cbn [product fold_right]. rewrite andb_false_r. reflexivity.
  - rewrite jz_cons, product_cons, IH, sg_mul_r, (lz_mul Hp Op), (lz_reciprocity Hp Hq Op Oq) by auto using product_odd. fold (sg p q). ring.
Qed.
Lemma jz_rec ps qs : Forall odd_prime ps -> Forall odd_prime qs ->
  jz qs (product ps) = sg (product ps) (product qs) * jz ps (product qs).
Proof.
  intros Fp Fq. induction Fp as [|p ps Hp Hps IH].
  - cbn [product fold_right]. rewrite jz_1 by auto. unfold sg. cbn. reflexivity.
  - rewrite product_cons, jz_mul, IH, jz_cons, (jz_rec1 p qs Hp Fq), sg_mul_l by (auto using product_odd; apply Hp). ring.
Qed.
Definition two (n : Z) : Z := if (n mod 8 =? 1) || (n mod 8 =? 7) then 1 else -1.
Lemma two_mul a b : a mod 2 = 1 -> b mod 2 = 1 -> two (a * b) = two a * two b.
Proof.
  intros A B. unfold two. rewrite Zmult_mod.
  destruct (mod8 a A) as [-> | [-> | [-> | ->]]], (mod8 b B) as [-> | [-> | [-> | ->]]]; reflexivity.
Qed.
Lemma jz_2 ps : Forall odd_prime ps -> jz ps 2 = two (product ps).
Proof.
  induction 1 as [|p ps [Hp Ho] Hps IH]; [reflexivity|].
  rewrite jz_cons, product_cons, two_mul, IH, (lz_2 Hp Ho) by auto using product_odd. reflexivity.
Qed.

(** factorisations exist *)
Lemma factors n : 1 <= n -> exists ps, Forall prime ps /\ product ps = n.
Proof.
  intros Hn. assert (Hn0 : 0 <= n) by lia. revert Hn. pattern n. apply Zlt_0_ind; [|exact Hn0]. clear n Hn0. intros n IH _ Hn.
  destruct (Z.eq_dec n 1) as [->|N1]; [exists []; split; [constructor|reflexivity]|].
  destruct (prime_dec n) as [P|P]; [exists [n]; split; [constructor; [exact P|constructor]|cbn; lia]|].
  destruct (not_prime_divide n ltac:(lia) P) as (d & Hd & q & E).
  assert (0 < q) by nia. assert (q < n) by nia.
  destruct (IH d) as (l1 & F1 & P1); [lia|lia|]. destruct (IH q) as (l2 & F2 & P2); [lia|lia|].
  exists (l1 ++ l2). split; [apply Forall_app; auto|]. rewrite E, <- P1, <- P2.
  clear. induction l1 as [|x l1 IH]; cbn [app]; rewrite ?product_cons; [cbn [product fold_right]; lia|]. rewrite IH. ring.
Qed.
Lemma odd_factors ps : Forall prime ps -> product ps mod 2 = 1 -> Forall odd_prime ps.
Proof.
  induction 1 as [|p ps Hp Hps IH]; intros O; [constructor|]. rewrite product_cons in O. apply odd_mul in O as [O1 O2].
  constructor; [split; auto|auto].
Qed.

(** split2 *)
Lemma split2_spec f : forall s r, 0 < r -> r < 2 ^ Z.of_nat f -> 0 <= s ->
  exists k r', split2 f s r = Ok (s + Z.of_nat k, r') /\ r = 2 ^ Z.of_nat k * r' /\ r' mod 2 = 1.
Proof.
  induction f as [|f IH]; intros s r Hr Hf Hs; cbn [split2].
  - change (2 ^ Z.of_nat 0) with 1 in Hf. lia.
  - destruct (r mod 2 =? 0) eqn:E.
    + apply Z.eqb_eq in E. assert (E2 : r = 2 * (r / 2)) by (Z.to_euclidean_division_equations; lia).
      rewrite Nat2Z.inj_succ, Z.pow_succ_r in Hf by lia.
      destruct (IH (s + 1) (r / 2)) as (k & r' & A & B & C); [lia..|].
      exists (S k), r'. rewrite A. split; [f_equal; f_equal; lia|]. split; [|exact C].
      rewrite Nat2Z.inj_succ, Z.pow_succ_r by lia. rewrite E2, B at 1. ring.
    + exists 0%nat, r. split; [f_equal; f_equal; lia|]. split; [change (2 ^ Z.of_nat 0) with 1; ring|].
      apply Z.eqb_neq in E. assert (A := Z.mod_pos_bound r 2 eq_refl). lia.
Qed.

Lemma jz_pow2 ps k : Forall odd_prime ps -> jz ps (2 ^ Z.of_nat k) = if Z.of_nat k mod 2 =? 0 then 1 else two (product ps).
Proof.
  intros F. induction k as [|k IH]; [now apply jz_1|].
  rewrite Nat2Z.inj_succ, Z.pow_succ_r, jz_mul, IH, jz_2 by (auto; lia).
  assert (T : two (product ps) * two (product ps) = 1) by (unfold two; destruct (_ || _); reflexivity).
  destruct (Z.of_nat k mod 2 =? 0) eqn:E.
  - replace (Z.succ (Z.of_nat k) mod 2 =? 0) with false; [ring|]. symmetry. apply Z.eqb_neq. Z.to_euclidean_division_equations. lia.
  - replace (Z.succ (Z.of_nat k) mod 2 =? 0) with true; [exact T|]. symmetry. apply Z.eqb_eq. Z.to_euclidean_division_equations. lia.
Qed.

Lemma jacobi_spec fuel : forall a n ps, 3 <= n -> n mod 2 = 1 -> n <= Z.of_nat fuel -> Forall odd_prime ps -> product ps = n ->
  jacobi fuel a n = Ok (jz ps a).
Proof.
  induction fuel as [|f IH]; intros a n ps Hn On Hf F P; [lia|]. cbn [jacobi].
  replace (3 <=? n) with true by lia. replace (n mod 2 =? 1) with true by lia. cbn [py_assert bind].
  assert (Hm := Z.mod_pos_bound a n ltac:(lia)).
  assert (Hj : jz ps a = jz ps (a mod n)).
  { apply jz_mod; auto. rewrite P. exists (a / n). assert (D := Z.div_mod a n ltac:(lia)). lia. }
  rewrite Hj. clear Hj. generalize dependent (a mod n). intros b Hb. clear a.
  destruct (b =? 0) eqn:E0. { apply Z.eqb_eq in E0. subst b. rewrite jz_0; auto; [lia|]. apply Z.divide_0_r. }
  destruct (b =? 1) eqn:E1. { apply Z.eqb_eq in E1. subst b. now rewrite jz_1. }
  apply Z.eqb_neq in E0. apply Z.eqb_neq in E1.
  assert (Hpow : b < 2 ^ Z.of_nat (S f)).
  { eapply Z.lt_le_trans with (Z.of_nat (S f)); [lia|]. apply Z.lt_le_incl. apply Zpow_facts.Zpower2_lt_lin. lia. }
  destruct (split2_spec (S f) 0 b) as (k & r & A & B & C); [lia..|]. rewrite A. cbn [bind]. rewrite Z.add_0_l.
  assert (Hr : 0 < r) by (assert (0 < 2 ^ Z.of_nat k) by (apply Z.pow_pos_nonneg; lia); nia).
  assert (Hrn : r < n) by (assert (1 <= 2 ^ Z.of_nat k) by (change 1 with (2 ^ 0); apply Z.pow_le_mono_r; lia); nia).
  assert (S1 : (if (Z.of_nat k mod 2 =? 0) || (n mod 8 =? 1) || (n mod 8 =? 7) then 1 else -1) = jz ps (2 ^ Z.of_nat k)).
  { rewrite jz_pow2, P by auto. unfold two. destruct (Z.of_nat k mod 2 =? 0); reflexivity. }
  rewrite S1. rewrite B, jz_mul by auto.
  destruct (r =? 1) eqn:R1. { apply Z.eqb_eq in R1. subst r. rewrite jz_1 by auto. f_equal. ring. }
  apply Z.eqb_neq in R1. assert (R2 : r <> 2) by (intros ->; discriminate).
  destruct (factors r ltac:(lia)) as (qs & Fq & Pq). assert (Fq' : Forall odd_prime qs) by (apply odd_factors; auto; now rewrite Pq).
  rewrite (IH (n mod r) r qs) by (auto; lia). cbn [bind]. f_equal.
  assert (E : jz qs (n mod r) = jz qs n).
  { apply jz_mod; auto. rewrite Pq. exists (- (n / r)). assert (D := Z.div_mod n r ltac:(lia)). lia. }
  rewrite E. rewrite <- Pq at 2. rewrite (jz_rec qs ps Fq' F), P, Pq. unfold sg. rewrite andb_comm.
  destruct ((r mod 4 =? 3) && (n mod 4 =? 3)); ring.
Qed.

Lemma jacobi_symbol_jz a n s : n mod 2 = 1 -> (jacobi_symbol a n s <-> exists ps, Forall odd_prime ps /\ product ps = n /\ s = jz ps a).
Proof.
  intros O. split.
  - intros (ps & ls & F & P & L & S). exists ps. assert (F' : Forall odd_prime ps) by (apply odd_factors; auto; now rewrite P).
    split; auto. split; auto. subst s. clear P F O. revert F'. induction L as [|p l ps ls Hl _ IH]; intros F'; [reflexivity|].
    inversion F' as [|? ? [Hp Ho] F'']; subst. rewrite jz_cons, product_cons, IH by auto. f_equal. now apply (lz_legendre Hp Ho).
  - intros (ps & F & P & ->). exists ps, (map (fun p => lz p a) ps). split; [eapply Forall_impl; [|exact F]; intros p H; apply H|].
    split; auto. split; [|reflexivity]. clear P O. induction F as [|p ps [Hp Ho] _ IH]; constructor; auto. now apply (lz_legendre Hp Ho).
Qed.

Lemma c44_jacobi : forall a n, 3 <= n -> n mod 2 = 1 -> exists fuel0 s,
  (forall fuel, (fuel0 <= fuel)%nat -> jacobi fuel a n = Ok s) /\
  jacobi_symbol a n s /\ (forall s', jacobi_symbol a n s' -> s' = s) /\ (prime n -> legendre a n s).
Proof.
  intros a n Hn On. destruct (factors n ltac:(lia)) as (ps & F & P). assert (F' : Forall odd_prime ps) by (apply odd_factors; auto; now rewrite P).
  assert (J : forall fuel, (Z.to_nat n <= fuel)%nat -> jacobi fuel a n = Ok (jz ps a)) by (intros; apply jacobi_spec; auto; lia).
  exists (Z.to_nat n), (jz ps a). split; [exact J|]. split; [apply jacobi_symbol_jz; eauto|].
  assert (U : forall ps', Forall odd_prime ps' -> product ps' = n -> jz ps' a = jz ps a).
  { intros ps' F1 P1. assert (E := jacobi_spec (Z.to_nat n) a n ps' Hn On ltac:(lia) F1 P1). rewrite J in E by lia. congruence. }
  split.
  - intros s' H. apply jacobi_symbol_jz in H as (ps' & F1 & P1 & ->); auto.
  - intros Hp. rewrite <- (U [n]); [|constructor; [split; assumption|constructor]|cbn; lia]. apply (lz_legendre Hp On). unfold jz. cbn. lia.
Qed.
Lemma c44_bad_arguments : forall a n fuel, n < 3 \/ n mod 2 <> 1 -> jacobi (S fuel) a n = Raise AssertionError.
Proof.
  intros a n fuel H. cbn [jacobi]. destruct (3 <=? n) eqn:E; [|reflexivity]. cbn [py_assert bind].
  replace (n mod 2 =? 1) with false; [reflexivity|]. symmetry. apply Z.eqb_neq. lia.
Qed.

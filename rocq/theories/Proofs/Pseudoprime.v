(** A 256-bit composite that is_prime accepts (C50): a product of three primes f with
    (n-1)/(f-1) odd and equal Legendre symbols at the witnesses. *)
From Coq Require Import Znumtheory Zpow_facts Setoid Morphisms.
From Verif Require Import Proofs.Tac Model.NumberTheory Spec.NumberSpec Proofs.Jacobi Proofs.Cong Proofs.Sqrt Proofs.PrimeCert Proofs.Legendre Proofs.PrimeFacts Proofs.RabinMiller.
Local Open Scope Z_scope.

Definition spsp : Z := 91397179949997553782008791327263788223330193410286921849912190157989606701219.
Definition f1 : Z := 2805062367585022276572499.
Definition f2 : Z := 115007557070985913339472419.
Definition f3 : Z := 283311299126087249933822299.
Lemma spsp_eq : spsp = f1 * f2 * f3. Proof. reflexivity. Qed.
Definition spsp_certs : list cert :=
  [Cert 3 2 [(2, 1%nat)]; Cert 7 3 [(2, 1%nat)]; Cert 19 2 [(2, 1%nat); (3, 2%nat)]; Cert 5 2 [(2, 2%nat)]; Cert 17 3 [(2, 4%nat)];
   Cert 2144551 6 [(2, 1%nat); (3, 1%nat); (5, 2%nat); (17, 1%nat)]; Cert 1737086311 15 [(2, 1%nat); (2144551, 1%nat)];
   Cert 13 2 [(2, 2%nat)]; Cert 37 2 [(2, 2%nat); (3, 2%nat)]; Cert 281 3 [(2, 3%nat); (5, 1%nat)]; Cert 563 2 [(2, 1%nat); (281, 1%nat)];
   Cert 41 3 [(2, 3%nat)]; Cert 101 2 [(2, 2%nat); (5, 2%nat)];
   Cert 2023570001441 3 [(2, 5%nat); (5, 1%nat); (13, 1%nat); (37, 1%nat); (563, 1%nat)];
   Cert f1 2 [(2, 1%nat); (2023570001441, 1%nat)];
   Cert f2 10 [(3, 1%nat); (7, 1%nat); (19, 1%nat); (41, 1%nat); (1737086311, 1%nat)];
   Cert f3 2 [(7, 1%nat); (19, 1%nat); (101, 1%nat); (1737086311, 1%nat)]].
Lemma spsp_certs_ok : all_proven spsp_certs = true. Proof. vm_compute. reflexivity. Qed.
Lemma f1_prime : odd_prime f1. Proof. split; [|reflexivity]. apply (cert_prime spsp_certs); [exact spsp_certs_ok|]. do 14 right. now left. Qed.
Lemma f2_prime : odd_prime f2. Proof. split; [|reflexivity]. apply (cert_prime spsp_certs); [exact spsp_certs_ok|]. do 15 right. now left. Qed.
Lemma f3_prime : odd_prime f3. Proof. split; [|reflexivity]. apply (cert_prime spsp_certs); [exact spsp_certs_ok|]. do 16 right. now left. Qed.

(** Legendre symbols of small primes by reciprocity *)
Definition leg (q f : Z) : Z := if q =? 2 then two f else sg q f * lz q f.
Lemma leg_ok q f : prime q -> odd_prime f -> lz f q = leg q f.
Proof.
  intros Q F. unfold leg. destruct (q =? 2) eqn:E.
  - apply Z.eqb_eq in E. subst q. destruct F as (Fp & Fo). now rewrite (lz_2 Fp Fo).
  - apply Z.eqb_neq in E. assert (OQ : odd_prime q).
    { split; [exact Q|]. destruct (Z.eq_dec (q mod 2) 0) as [D|D]; [|clear - D; lia]. apply Z.mod_divide in D; [|discriminate].
      apply prime_divisors in D; [|exact Q]. assert (X := prime_ge_2 q Q). clear - D X E. lia. }
    assert (R := jz_rec1 q [f] OQ (Forall_cons _ F (Forall_nil _))). rewrite jz_cons in R. unfold product in R. cbn [fold_right] in R.
    change (jz [] q) with 1 in R. rewrite !Z.mul_1_r in R. exact R.
Qed.
(** the symbol is the power needed by the strong test *)
Lemma sym_pow f q r o s : odd_prime f -> prime q -> r = f / 2 * (2 * o + 1) -> 0 <= o -> leg q f = s -> s = 1 \/ s = -1 -> cong f (q ^ r) s.
Proof.
  intros F Q R O L S. assert (P2 := prime_ge_2 f (proj1 F)). rewrite <- (leg_ok q f Q F) in L. rewrite R, Z.pow_mul_r; [|apply Z.div_pos; clear - P2; lia|clear - O; lia].
  assert (E := euler_eqm f (proj1 F) (proj2 F) q). rewrite L in E. rewrite E. apply cong_refl_eq.
  destruct S as [->| ->]; [apply Z.pow_1_l; clear - O; lia|]. rewrite Z.pow_add_r, Z.pow_mul_r by (clear - O; lia).
  change ((-1) ^ 2) with 1. rewrite Z.pow_1_l by exact O. reflexivity.
Qed.
Lemma spsp_symbols : forallb (fun q => (leg q f1 =? leg q f2) && (leg q f1 =? leg q f3) && ((leg q f1 =? 1) || (leg q f1 =? -1))) (firstn 12 smallprimes) = true.
Proof. vm_compute. reflexivity. Qed.
Definition spsp_r : Z := 45698589974998776891004395663631894111665096705143460924956095078994803350609.
Lemma spsp_strong q : prime q -> q <= 37 -> strong_probable_prime spsp q.
Proof.
  intros Q L. assert (I : In q (firstn 12 smallprimes)) by (apply (witnesses 256); split; [exact Q|exact L]).
  assert (C := spsp_symbols). rewrite forallb_forall in C. specialize (C q I). rewrite !andb_true_iff, orb_true_iff, !Z.eqb_eq in C.
  destruct C as ((C2 & C3) & S).
  assert (H1 : cong f1 (q ^ spsp_r) (leg q f1)).
  { apply (sym_pow f1 q _ (spsp_r / (f1 / 2) / 2)); [exact f1_prime|exact Q|vm_compute; reflexivity|vm_compute; discriminate|reflexivity|exact S]. }
  assert (H2 : cong f2 (q ^ spsp_r) (leg q f1)).
  { apply (sym_pow f2 q _ (spsp_r / (f2 / 2) / 2)); [exact f2_prime|exact Q|vm_compute; reflexivity|vm_compute; discriminate|symmetry; exact C2|exact S]. }
  assert (H3 : cong f3 (q ^ spsp_r) (leg q f1)).
  { apply (sym_pow f3 q _ (spsp_r / (f3 / 2) / 2)); [exact f3_prime|exact Q|vm_compute; reflexivity|vm_compute; discriminate|symmetry; exact C3|exact S]. }
  assert (H : cong spsp (q ^ spsp_r) (leg q f1)).
  { rewrite spsp_eq. apply cong_prod; [vm_compute; discriminate|vm_compute; discriminate|vm_compute; reflexivity| |exact H3].
    apply cong_prod; [vm_compute; discriminate|vm_compute; discriminate|vm_compute; reflexivity|exact H1|exact H2]. }
  apply (strong_fixed spsp q 1 spsp_r); [discriminate|reflexivity|reflexivity|reflexivity|].
  destruct S as [S|S]; rewrite S in H; [left; exact H|right; exists 0]. split; [split; [discriminate|reflexivity]|]. change (2 ^ 0 * spsp_r) with spsp_r. exact H.
Qed.
Lemma spsp_accepted nb : 250 <= nb spsp < 300 -> exists fuel0, forall fuel, (fuel0 <= fuel)%nat -> is_prime nb fuel spsp = Ok true.
Proof.
  intros H. destruct (c50_criterion nb spsp) as (f0 & b & F & B); [reflexivity|]. exists f0. replace true with b; [exact F|].
  apply B. split; [vm_compute; reflexivity|]. intros q Q L. apply spsp_strong; [exact Q|].
  replace (witness_limit (nb spsp)) with 37 in L; [exact L|]. unfold witness_limit. set (x := nb spsp) in *. clearbody x. clear - H.
  replace (x <? 100) with false by lia. replace (x <? 150) with false by lia. replace (x <? 200) with false by lia. replace (x <? 250) with false by lia. now replace (x <? 300) with true by lia.
Qed.
Lemma c50_is_prime_refuted : exists n, 2 ^ 255 <= n < 2 ^ 256 /\ ~ prime n /\
  forall n_bits, 250 <= n_bits n < 300 -> exists fuel0, forall fuel, (fuel0 <= fuel)%nat -> is_prime n_bits fuel n = Ok true.
Proof.
  exists spsp. split; [split; [vm_compute; congruence|vm_compute; reflexivity]|]. split.
  { intros P. assert (D : (f1 | spsp)) by (apply Z.mod_divide; [discriminate|vm_compute; reflexivity]).
    apply prime_divisors in D; [|exact P]. unfold spsp, f1 in D. clear - D. lia. }
  exact spsp_accepted.
Qed.

(** C38-C43 *)
From Coq Require Import Znumtheory Zpow_facts.
From Verif Require Import Proofs.Tac Model.NumberTheory Model.GaloisField Spec.NumberSpec Proofs.NTBasic Proofs.NTPoly.
Local Open Scope Z_scope.

(** ** C38 *)
Lemma gf_ok p v : 0 < p -> gf p v = Ok (v mod p).
Proof. intros H. unfold gf, py_mod. replace (p =? 0) with false by lia. reflexivity. Qed.

Lemma c38_arithmetic : forall p a b, 0 < p -> forall o, o = Elt (b mod p) \/ o = Int b ->
  gf p a = Ok (a mod p) /\ 0 <= a mod p < p /\
  e_add p (a mod p) o = Ok ((a + b) mod p) /\ e_radd p (a mod p) o = Ok ((b + a) mod p) /\
  e_sub p (a mod p) o = Ok ((a - b) mod p) /\ e_rsub p (a mod p) o = Ok ((b - a) mod p) /\
  e_mul p (a mod p) o = Ok ((a * b) mod p) /\ e_rmul p (a mod p) o = Ok ((b * a) mod p) /\
  e_neg p (a mod p) = Ok ((- a) mod p).
Proof.
  intros p a b Hp o Ho. unfold e_add, e_radd, e_sub, e_rsub, e_mul, e_rmul, e_neg, e_mul.
  rewrite !gf_ok by auto. split; [reflexivity|]. split; [apply Z.mod_pos_bound; auto|].
  assert (E : (to_int o) mod p = b mod p) by (destruct Ho as [-> | ->]; cbn [to_int]; [apply Z.mod_mod; lia|reflexivity]).
  repeat split; f_equal.
  - rewrite Zplus_mod, E, Z.mod_mod, <- Zplus_mod by lia. reflexivity.
  - rewrite Zplus_mod, E, Z.mod_mod, <- Zplus_mod by lia. f_equal; lia.
  - rewrite Zminus_mod, E, Z.mod_mod, <- Zminus_mod by lia. reflexivity.
  - rewrite Zminus_mod, E, Z.mod_mod, <- Zminus_mod by lia. reflexivity.
  - rewrite Zmult_mod, E, Z.mod_mod, <- Zmult_mod by lia. reflexivity.
  - rewrite Zmult_mod, E, Z.mod_mod, <- Zmult_mod by lia. f_equal; lia.
  - rewrite <- !Z.sub_0_l, Zminus_mod, Z.mod_mod, <- Zminus_mod by lia. reflexivity.
Qed.
Lemma c38_power : forall p a e, 0 < p -> 0 <= e ->
  e_xor p (a mod p) (Int e) = Ok (a ^ e mod p) /\ e_rxor p (e mod p) (Int a) = Ok (a ^ (e mod p) mod p).
Proof.
  intros p a e Hp He. unfold e_xor, e_rxor. cbn [to_int]. replace (e <? 0) with false by lia. rewrite !gf_ok by auto.
  split; [|reflexivity]. f_equal. symmetry. apply Zpower_mod. lia.
Qed.
Lemma c38_equality : forall p a b, 0 < p -> (e_eq (a mod p) (Elt (b mod p)) = true <-> a mod p = b mod p).
Proof.
  intros p a b Hp. unfold e_eq, e_cmp. cbn [to_int]. destruct (a mod p =? b mod p) eqn:E; cbn.
  - apply Z.eqb_eq in E. tauto.
  - apply Z.eqb_neq in E. split; [discriminate|tauto].
Qed.
Lemma c38_int_equality_refuted : exists p a b, prime p /\ a mod p = b mod p /\ e_eq (a mod p) (Int b) = false.
Proof. exists 7, 3, 10. split; [|split; reflexivity]. apply prime_alt. split; [lia|]. intros n Hn [k Hk].
  assert (n = 2 \/ n = 3 \/ n = 4 \/ n = 5 \/ n = 6) by lia. lia.
Qed.
Lemma c38_is_element_raises : forall x, gf_is_element x = Raise NameError.
Proof. reflexivity. Qed.

(** ** C39 *)
Lemma prime_gcd p x : prime p -> x mod p <> 0 -> Z.gcd x p = 1.
Proof.
  intros Hp H. assert (H1 := prime_ge_2 p Hp). apply Zgcd_1_rel_prime. apply rel_prime_sym. apply prime_rel_prime; auto.
  intros D. apply H. now apply Zdivide_mod.
Qed.
Lemma prime_gcd_0 p x : prime p -> x mod p = 0 -> Z.gcd x p <> 1.
Proof.
  intros Hp H E. assert (H1 := prime_ge_2 p Hp). apply Zmod_divide in H; [|lia].
  assert (D : (p | Z.gcd x p)) by (apply Z.gcd_greatest; auto; apply Z.divide_refl).
  rewrite E in D. apply Z.divide_pos_le in D; lia.
Qed.
Lemma div_back p a d i : 1 < p -> (d * i) mod p = 1 -> ((a mod p * i) mod p mod p * d) mod p = a mod p.
Proof.
  intros Hp E. rewrite Z.mod_mod, Z.mul_mod_idemp_l by lia.
  replace (a mod p * i * d) with (a mod p * (d * i)) by ring. rewrite <- Z.mul_mod_idemp_r, E, Z.mul_1_r, Z.mod_mod by lia. reflexivity.
Qed.
Lemma c39_division : forall p a o, prime p -> 0 <= to_int o -> to_int o mod p <> 0 ->
  exists fuel0, forall fuel, (fuel0 <= fuel)%nat ->
  exists q, e_div fuel p (a mod p) o = Ok q /\ 0 <= q < p /\ e_mul p q o = Ok (a mod p).
Proof.
  intros p a o Hp Ho Hn. exists (S (steps (to_int o))). intros fuel Hf. assert (H1 := prime_ge_2 p Hp).
  destruct (gf_inverse_spec fuel (to_int o) p) as (i & A & B & C); auto; [lia|now apply prime_gcd|].
  unfold e_div, gf_inverse. rewrite A. cbn [bind]. unfold e_mul. cbn [to_int]. rewrite gf_ok by lia. cbn [bind]. rewrite gf_ok by lia.
  eexists. split; [reflexivity|]. split; [apply Z.mod_pos_bound; lia|]. rewrite gf_ok by lia. f_equal. apply div_back; auto. lia.
Qed.
Lemma c39_int_divided_by_element : forall p a b, prime p -> b mod p <> 0 ->
  exists fuel0, forall fuel, (fuel0 <= fuel)%nat -> exists q, e_rdiv fuel p (b mod p) (Int a) = Ok q /\ 0 <= q < p /\ e_mul p q (Elt (b mod p)) = Ok (a mod p).
Proof.
  intros p a b Hp Hn. exists (S (steps p)). intros fuel Hf. assert (H1 := prime_ge_2 p Hp). assert (Hb := Z.mod_pos_bound b p ltac:(lia)).
  assert (Hf' : (steps (b mod p) < fuel)%nat) by (eapply Nat.le_lt_trans; [apply steps_le|exact Hf]; lia).
  destruct (gf_inverse_spec fuel (b mod p) p) as (i & A & B & C); auto; try lia.
  { apply prime_gcd; auto. rewrite Z.mod_mod by lia. exact Hn. }
  unfold e_rdiv, gf_inverse. rewrite A. cbn [bind to_int]. rewrite gf_ok by lia.
  eexists. split; [reflexivity|]. split; [apply Z.mod_pos_bound; lia|]. unfold e_mul. rewrite gf_ok by lia. cbn [to_int]. f_equal.
  rewrite Z.mul_mod_idemp_l by lia. replace (a * i * (b mod p)) with (a * (b mod p * i)) by ring.
  rewrite <- Z.mul_mod_idemp_r, C, Z.mul_1_r by lia. reflexivity.
Qed.
Lemma c39_zero_raises : forall p a o, prime p -> to_int o mod p = 0 ->
  exists fuel0, forall fuel, (fuel0 <= fuel)%nat -> e_div fuel p (a mod p) o = Raise GenericException.
Proof.
  intros p a o Hp H0. exists (S (steps (to_int o))). intros fuel Hf. assert (H1 := prime_ge_2 p Hp). unfold e_div, gf_inverse.
  rewrite gf_inverse_raises; auto; [lia|]. destruct (Z.lt_ge_cases (to_int o) 0); [auto|]. right. split; [auto|]. now apply prime_gcd_0.
Qed.
Lemma c39_negative_refuted : forall p a b, prime p -> b < 0 ->
  exists fuel0, forall fuel, (fuel0 <= fuel)%nat -> e_div fuel p (a mod p) (Int b) = Raise GenericException.
Proof.
  intros p a b Hp Hb. exists (S (steps b)). intros fuel Hf. assert (H1 := prime_ge_2 p Hp). unfold e_div, gf_inverse.
  rewrite gf_inverse_raises; auto. lia.
Qed.

(** ** C40 *)
Lemma c40_inverse : forall a m, 2 <= m -> exists fuel0, forall fuel, (fuel0 <= fuel)%nat ->
  (Z.gcd a m = 1 -> exists x, NumberTheory.inverse_mod fuel a m = Ok x /\ 1 <= x <= m - 1 /\ (a * x) mod m = 1 /\
     forall y, 1 <= y <= m - 1 -> (a * y) mod m = 1 -> y = x) /\
  (Z.gcd a m <> 1 -> NumberTheory.inverse_mod fuel a m = Raise AssertionError).
Proof.
  intros a m Hm. exists (steps m). intros fuel Hf. destruct (inverse_mod_spec fuel a m Hm Hf) as (A & B). split; [|exact B].
  intros G. destruct (A G) as (x & E & R & M). exists x. split; [exact E|]. split; [exact R|]. split; [exact M|].
  intros y Ry My. eapply inverse_unique; eauto.
Qed.

(** ** C41 *)
Lemma c41_gcd2 : forall a b, exists fuel0, forall fuel, (fuel0 <= fuel)%nat ->
  exists g, gcd2 fuel a b = Ok g /\ (g = Z.gcd a b \/ g = - Z.gcd a b) /\ (0 <= a -> 0 <= b -> g = Z.gcd a b).
Proof.
  intros a b. exists (steps a). intros fuel Hf. destruct (gcd2_abs a b fuel Hf) as (g & A & B & C). exists g.
  split; [exact A|]. split; [lia|]. intros Ha Hb. specialize (C Ha Hb). lia.
Qed.
Definition zmax (l : list Z) : Z := fold_right Z.max 0 l.
Lemma zmax_bound l : Forall (fun y => 0 <= y) l -> Forall (fun y => 0 <= y <= zmax l) l.
Proof.
  induction 1 as [|x l Hx Hl IH]; constructor; cbn [zmax fold_right]; [lia|].
  fold (zmax l). eapply Forall_impl; [|exact IH]. cbn. intros y. lia.
Qed.
Lemma c41_gcd : forall l, l <> [] -> Forall (fun y => 0 <= y) l ->
  exists fuel0 g, (forall fuel, (fuel0 <= fuel)%nat -> gcd fuel l = Ok g /\ gcd_list fuel l = Ok g) /\
    0 <= g /\ forall d, (d | g) <-> Forall (fun y => (d | y)) l.
Proof.
  intros l Hl Hp. destruct l as [|x t]; [congruence|]. exists (steps (zmax (x :: t))), (fold_left Z.gcd t x).
  pose proof (zmax_bound _ Hp) as B. apply Forall_cons_iff in B as [B1 B2]. apply Forall_cons_iff in Hp as [P1 P2].
  split.
  - intros fuel Hf. assert (G : gcd_list fuel (x :: t) = Ok (fold_left Z.gcd t x)) by (apply (gcd_fold _ _ _ Hf B2 x B1)).
    split; [|exact G]. destruct t; [reflexivity|]. exact G.
  - split; [now apply fold_gcd_nonneg|]. intros d. rewrite fold_gcd_greatest, Forall_cons_iff. tauto.
Qed.
Lemma c41_lcm : forall l, l <> [] -> Forall (fun y => 0 < y) l ->
  exists fuel0 g, (forall fuel, (fuel0 <= fuel)%nat -> lcm fuel l = Ok g /\ lcm_list fuel l = Ok g) /\
    0 < g /\ forall m, (g | m) <-> Forall (fun y => (y | m)) l.
Proof.
  intros l Hl Hp. destruct l as [|x t]; [congruence|]. exists (steps (x * fold_right Z.mul 1 t)), (fold_left Z.lcm t x).
  apply Forall_cons_iff in Hp as [P1 P2]. split.
  - intros fuel Hf. assert (G : lcm_list fuel (x :: t) = Ok (fold_left Z.lcm t x)) by (apply (lcm_fold _ _ P2 x P1 Hf)).
    split; [|exact G]. destruct t; [reflexivity|]. exact G.
  - split; [|intros d; rewrite fold_lcm_least, Forall_cons_iff; tauto].
    clear - P1 P2. revert x P1. induction P2 as [|y t Hy Ht IH]; intros x Hx; cbn [fold_left]; auto.
    apply IH. now apply lcm_pos_le.
Qed.
Lemma c41_lcm_zeros_refuted : exists l, l <> [] /\ Forall (fun y => 0 <= y) l /\
  forall fuel, lcm fuel l = Raise ZeroDivisionError.
Proof. exists [0; 0]. split; [discriminate|]. split; [repeat constructor; lia|]. intros [|fuel]; reflexivity. Qed.

(** ** C42 *)
Lemma c42_modular_exp : forall b e m, 0 <= e -> 0 < m -> modular_exp b e m = Ok (b ^ e mod m).
Proof.
  intros b e m He Hm. unfold modular_exp, py_pow3. replace (e <? 0) with false by lia. replace (m =? 0) with false by lia.
  rewrite Zpow_mod_correct by lia. reflexivity.
Qed.
Lemma c42_negative : forall b e m, e < 0 -> modular_exp b e m = Raise NegativeExponentError.
Proof. intros b e m He. unfold modular_exp. replace (e <? 0) with true by lia. reflexivity. Qed.

(** ** C43 *)
Lemma pe_Z l x : pe 0 Z.add Z.mul (fun z => z) l x = peval l x.
Proof. induction l as [|c l IH]; [reflexivity|]. cbn [pe fold_right peval]. unfold pe in IH. now rewrite IH. Qed.
Lemma kpow_Z x n : kpow 1 Z.mul x n = x ^ Z.of_nat n.
Proof. induction n as [|n IH]; [reflexivity|]. rewrite Nat2Z.inj_succ, Z.pow_succ_r by lia. cbn [kpow]. now rewrite IH. Qed.
Lemma Zring : ring_theory 0 1 Z.add Z.mul Z.sub Z.opp (@eq Z).
Proof. constructor; intros; ring. Qed.

Lemma c43_multiply : forall m1 m2 f p, p <> 0 -> (2 <= length f)%nat -> nth (length f - 1) f 0 = 1 ->
  exists r, polynomial_multiply_mod m1 m2 f p = Ok r /\ (length r < length f)%nat /\
    poly_congruent f p r (fun x => peval m1 x * peval m2 x).
Proof.
  intros m1 m2 f p Hp L M.
  destruct (multiply_mod_spec 0 1 Z.add Z.mul Z.sub Z.opp Zring (fun z => z) eq_refl eq_refl (fun _ _ => eq_refl) (fun _ _ => eq_refl)
    f p Hp M L m1 m2) as (r & A & B & q & h & C).
  exists r. split; [exact A|]. split; [exact B|]. exists q, h. intros x. specialize (C x). rewrite (pe_pmul 0 1 Z.add Z.mul Z.sub Z.opp Zring) in C by auto.
  rewrite !pe_Z in C. exact C.
Qed.
Lemma c43_power : forall base e f p, 0 <= e < p -> (2 <= length f)%nat -> nth (length f - 1) f 0 = 1 ->
  exists fuel0, forall fuel, (fuel0 <= fuel)%nat ->
  exists r, polynomial_exp_mod fuel base e f p = Ok r /\ ((length base < length f)%nat \/ e <> 1 -> (length r < length f)%nat) /\
    poly_congruent f p r (fun x => peval base x ^ e).
Proof.
  intros base e f p He L M. exists (Z.to_nat (Z.log2 e + 1)). intros fuel Hf.
  assert (Hfu : e < 2 ^ Z.of_nat fuel).
  { destruct (Z.eq_dec e 0) as [->|]; [apply Z.pow_pos_nonneg; lia|]. apply Z.log2_lt_pow2; [lia|]. pose proof (Z.log2_nonneg e). lia. }
  assert (Hp : p <> 0) by lia.
  destruct (exp_mod_spec 0 1 Z.add Z.mul Z.sub Z.opp Zring (fun z => z) eq_refl eq_refl (fun _ _ => eq_refl) (fun _ _ => eq_refl)
    f p Hp M L fuel base e He (fun _ => Hfu)) as (r & A & B & q & h & C).
  exists r. split; [exact A|]. split.
  - intros [H|H]; destruct B as [B|[B1 B2]]; auto; [now subst|congruence].
  - exists q, h. intros x. specialize (C x). rewrite (pe_ppow 0 1 Z.add Z.mul Z.sub Z.opp Zring) in C by auto. rewrite !pe_Z, kpow_Z, Z2Nat.id in C by lia. exact C.
Qed.
Lemma c43_unreduced_base_refuted : exists base f p, (2 <= length f)%nat /\ nth (length f - 1) f 0 = 1 /\ 1 < p /\
  forall fuel, polynomial_exp_mod fuel base 1 f p = Ok base /\ (length f <= length base)%nat.
Proof.
  exists [0; 0; 1], [1; 1], 7. split; [cbn; lia|]. split; [reflexivity|]. split; [lia|]. intros fuel. split; [|cbn; lia].
  destruct fuel; reflexivity.
Qed.
Lemma c43_bad_modulus : forall m1 m2 f p, p <> 0 -> f <> [] -> (nth (length f - 1) f 0 <> 1 \/ length f = 1%nat) ->
  polynomial_multiply_mod m1 m2 f p = Raise AssertionError.
Proof.
  intros m1 m2 f p Hp Hf H. unfold polynomial_multiply_mod, polynomial_reduce_mod. apply Z.eqb_neq in Hp. rewrite Hp.
  destruct f as [|x l] eqn:E; [congruence|]. rewrite <- E in *. unfold get_neg, py_assert, len.
  destruct (nth (length f - 1) f 0 =? 1) eqn:E1; [|reflexivity]. cbn [bind]. destruct H as [H|H]; [lia|]. rewrite H. reflexivity.
Qed.

From Coq Require Import ZArith Znumtheory List Bool Lia.
From Verif Require Import Model.Py Model.GaloisField Model.Ecc Model.Compare Proofs.NTFacts1 Proofs.EdgeFacts.
Local Open Scope Z_scope.

Lemma gf_pos p v : 0 < p -> gf p v = Ok (v mod p).
Proof. intros H. unfold gf, py_mod. replace (p =? 0) with false by (symmetry; apply Z.eqb_neq; lia). reflexivity. Qed.
Lemma c91_result p q a b : 0 < p ->
  let x := Element p (a mod p) in let y := Element q (b mod q) in
  el_new p a = Ok x /\
  el_add x y = Ok (Element p ((a + b mod q) mod p)) /\ el_sub x y = Ok (Element p ((a - b mod q) mod p)) /\ el_mul x y = Ok (Element p ((a * (b mod q)) mod p)) /\
  (cmp_eq (el_cmp x y) = true <-> a mod p = b mod q).
Proof.
  intros H. cbv zeta. unfold el_new, el_add, el_sub, el_mul, e_add, e_sub, e_mul, in_field. cbn [el_p el_v to_int]. rewrite !gf_pos by exact H. cbn [bind].
  rewrite Z.add_mod_idemp_l, Zminus_mod_idemp_l, Z.mul_mod_idemp_l by lia. repeat split.
  - unfold cmp_eq, el_cmp, e_cmp. cbn [el_v to_int]. destruct (Z.eqb_spec (a mod p) (b mod q)); [auto|discriminate].
  - unfold cmp_eq, el_cmp, e_cmp. cbn [el_v to_int]. intros ->. rewrite Z.eqb_refl. reflexivity.
Qed.
Lemma c91_division p q a b : prime p -> (b mod q) mod p <> 0 -> 0 < q -> exists fuel0, forall fuel, (fuel0 <= fuel)%nat ->
  exists z, el_div fuel (Element p (a mod p)) (Element q (b mod q)) = Ok (Element p z) /\ 0 <= z < p /\ (z * (b mod q)) mod p = a mod p.
Proof.
  intros Hp N Q. assert (P2 := prime_ge_2 _ Hp). destruct (c39_division p a (Elt (b mod q)) Hp) as (f0 & H); cbn [to_int]; [apply Z.mod_pos_bound; exact Q|exact N|].
  exists f0. intros fuel F. destruct (H fuel F) as (z & E & R & M). exists z. unfold el_div, in_field. cbn [el_p el_v]. rewrite E. split; [reflexivity|]. split; [exact R|].
  unfold e_mul in M. cbn [to_int] in M. rewrite gf_pos in M by lia. congruence.
Qed.
Lemma c91_refuted p q : 1 < p < q -> exists x y z w x' y', el_new p (p - 1) = Ok x /\ el_new q (p - 1) = Ok y /\ el_new p 1 = Ok z /\ el_new q 1 = Ok w /\
  cmp_eq (el_cmp x y) = true /\ cmp_eq (el_cmp z w) = true /\ el_add x z = Ok x' /\ el_add y w = Ok y' /\ cmp_eq (el_cmp x' y') = false /\
  el_add x w = Ok x' /\ el_add w x = Ok y'.
Proof.
  intros H. exists (Element p (p - 1)), (Element q (p - 1)), (Element p 1), (Element q 1), (Element p 0), (Element q p).
  unfold el_new, el_add, in_field, e_add. cbn [el_p el_v to_int]. rewrite !gf_pos by lia. cbn [bind].
  rewrite !(Z.mod_small (p - 1)) by lia. rewrite !(Z.mod_small 1) by lia. replace (p - 1 + 1) with p by ring. replace (1 + (p - 1)) with p by ring. rewrite Z.mod_same by lia. rewrite (Z.mod_small p q) by lia.
  unfold cmp_eq, el_cmp, e_cmp. cbn [el_v to_int]. rewrite !Z.eqb_refl. replace (0 =? p) with false by (symmetry; apply Z.eqb_neq; lia). repeat split.
Qed.
Lemma c91_sides p q a b x y : 0 < p -> 0 < q -> el_add (Element p a) (Element q b) = Ok x -> el_add (Element q b) (Element p a) = Ok y -> (x = y <-> p = q).
Proof.
  intros P Q. unfold el_add, in_field, e_add. cbn [el_p el_v to_int]. rewrite !gf_pos by assumption. cbn [bind]. intros E1 E2. injection E1 as <-. injection E2 as <-. split.
  - intros E. injection E as -> _. reflexivity.
  - intros ->. now rewrite Z.add_comm.
Qed.
(** ** the order operators *)
Lemma cmp01 c : c = 0 \/ c = 1 -> cmp_lt c = false /\ cmp_ge c = true /\ cmp_gt c = negb (cmp_eq c) /\ cmp_le c = cmp_eq c.
Proof. intros [->| ->]; repeat split. Qed.
Lemma el_cmp01 x y : el_cmp x y = 0 \/ el_cmp x y = 1.
Proof. unfold el_cmp, e_cmp. destruct (_ =? _); auto. Qed.
Lemma op_cmp01 x y : op_cmp x y = 0 \/ op_cmp x y = 1.
Proof. unfold op_cmp. destruct (_ && _); auto. Qed.
Lemma op_eq P Q : cmp_eq (op_cmp P Q) = true <-> P = Q.
Proof.
  destruct P as [o P], Q as [o' Q]. unfold cmp_eq, op_cmp. cbn [op_obj op_pt]. destruct ((o =? o') && point_eqb P Q) eqn:E.
  - apply andb_true_iff in E as (E & F). apply Z.eqb_eq in E. apply c64_equality in F. subst. tauto.
  - split; [discriminate|]. intros X. injection X as -> ->. rewrite Z.eqb_refl in E. assert (F := proj2 (c64_equality Q Q) eq_refl). rewrite F in E. discriminate.
Qed.
Lemma el_sym x y : el_cmp x y = el_cmp y x.
Proof. unfold el_cmp, e_cmp. cbn [to_int]. rewrite Z.eqb_sym. reflexivity. Qed.
Lemma op_sym P Q : op_cmp P Q = op_cmp Q P.
Proof.
  destruct (op_cmp01 P Q) as [E|E], (op_cmp01 Q P) as [F|F]; try congruence.
  - assert (P = Q) by (apply op_eq; rewrite E; reflexivity). congruence.
  - assert (Q = P) by (apply op_eq; rewrite F; reflexivity). congruence.
Qed.
Lemma c92_elements x y : cmp_lt (el_cmp x y) = false /\ cmp_ge (el_cmp x y) = true /\ cmp_gt (el_cmp x y) = negb (cmp_eq (el_cmp x y)) /\ cmp_le (el_cmp x y) = cmp_eq (el_cmp x y) /\ cmp_gt (el_cmp x y) = cmp_gt (el_cmp y x).
Proof. destruct (cmp01 _ (el_cmp01 x y)) as (A & C & D & E). repeat split; auto. now rewrite el_sym. Qed.
Lemma c92_points x y : cmp_lt (op_cmp x y) = false /\ cmp_ge (op_cmp x y) = true /\ cmp_gt (op_cmp x y) = negb (cmp_eq (op_cmp x y)) /\ cmp_le (op_cmp x y) = cmp_eq (op_cmp x y) /\ cmp_gt (op_cmp x y) = cmp_gt (op_cmp y x).
Proof. destruct (cmp01 _ (op_cmp01 x y)) as (A & C & D & E). repeat split; auto. now rewrite op_sym. Qed.
Lemma c92_refuted : exists x y, el_p x = el_p y /\ cmp_gt (el_cmp x y) = true /\ cmp_gt (el_cmp y x) = true.
Proof. exists (Element 7 2), (Element 7 3). repeat split. Qed.
(** ** curve objects *)
Lemma c93_same fuel curves o P Q k : let c := curves o in
  op_add fuel curves (OPoint o P) (OPoint o Q) = (do R <- add_points fuel c P Q; Ok (OPoint o R)) /\
  op_sub fuel curves (OPoint o P) (OPoint o Q) = (do R <- sub_points fuel c P Q; Ok (OPoint o R)) /\
  op_mul fuel curves (OPoint o P) k = (do R <- scalar_multiple fuel c P k; Ok (OPoint o R)).
Proof.
  cbv zeta. unfold op_sub, op_neg, op_mul, sub_points. cbn [op_obj op_pt].
  assert (A : forall N, op_add fuel curves (OPoint o P) (OPoint o N) = (do R <- add_points fuel (curves o) P N; Ok (OPoint o R))) by (intros N; unfold op_add, point_add; cbn [op_obj op_pt]; rewrite Z.eqb_refl; reflexivity).
  split; [apply A|]. split; [|reflexivity]. destruct (negate (curves o) Q) as [N|e]; cbn [bind]; [apply A|reflexivity].
Qed.
Lemma c93_refuted fuel curves o o' P Q : o <> o' ->
  op_add fuel curves (OPoint o P) (OPoint o' Q) = Raise AssertionError /\ cmp_eq (op_cmp (OPoint o P) (OPoint o' Q)) = false /\
  op_add fuel curves (OPoint o P) (op_identity o') = Raise AssertionError /\ cmp_eq (op_cmp (op_identity o) (op_identity o')) = false /\
  (forall R, op_sub fuel curves (OPoint o P) (OPoint o' Q) <> Ok R).
Proof.
  intros N. assert (B : (o =? o') = false) by (apply Z.eqb_neq; exact N).
  assert (A : forall P Q, op_add fuel curves (OPoint o P) (OPoint o' Q) = Raise AssertionError) by (intros P' Q'; unfold op_add, point_add; cbn [op_obj op_pt]; rewrite B; reflexivity).
  split; [apply A|]. split; [unfold op_cmp; cbn [op_obj]; rewrite B; reflexivity|]. split; [apply A|]. split; [unfold op_cmp, op_identity; cbn [op_obj]; rewrite B; reflexivity|].
  intros R. unfold op_sub, op_neg. cbn [op_obj op_pt]. destruct (negate (curves o') Q) as [M|e]; cbn [bind]; [rewrite A|]; discriminate.
Qed.

(** The field of integers modulo a prime, with Leibniz equality. *)
From Coq Require Import Znumtheory Eqdep_dec Field Setoid.
From Verif Require Import Proofs.Tac Proofs.Cong Proofs.Primality.
Local Open Scope Z_scope.

Section Fp.
Context (p : Z) (Hp : prime p).
Definition Fp : Type := {x : Z | x mod p = x}.
Definition fv (u : Fp) : Z := proj1_sig u.
Lemma fp_pos : 1 < p. Proof. assert (H := prime_ge_2 p Hp). lia. Qed.
Definition fi (z : Z) : Fp := exist _ (z mod p) (Zmod_mod z p).
Lemma fv_inj u v : fv u = fv v -> u = v.
Proof. destruct u as [x Hx], v as [y Hy]. cbn. intros ->. f_equal. apply UIP_dec. apply Z.eq_dec. Qed.
Lemma fv_fi z : fv (fi z) = z mod p. Proof. reflexivity. Qed.
Lemma fi_fv u : fi (fv u) = u. Proof. apply fv_inj. cbn. destruct u as [x Hx]. exact Hx. Qed.
Lemma fi_eq x y : fi x = fi y <-> cong p x y.
Proof. split; [intros E; split; exact (f_equal fv E)|]. intros [E]. apply fv_inj. exact E. Qed.
Lemma fv_range u : 0 <= fv u < p.
Proof. destruct u as [x Hx]. cbn. rewrite <- Hx. apply Z.mod_pos_bound. assert (H := fp_pos). lia. Qed.
Definition fadd u v := fi (fv u + fv v).
Definition fsub u v := fi (fv u - fv v).
Definition fmul u v := fi (fv u * fv v).
Definition fopp u := fi (- fv u).
Definition finv u := fi (fv u ^ (p - 2)).
Definition fdiv u v := fmul u (finv v).
Lemma fi_add x y : fi (x + y) = fadd (fi x) (fi y). Proof. apply fi_eq. rewrite !fv_fi. now cmod. Qed.
Lemma fi_sub x y : fi (x - y) = fsub (fi x) (fi y). Proof. apply fi_eq. rewrite !fv_fi. now cmod. Qed.
Lemma fi_mul x y : fi (x * y) = fmul (fi x) (fi y). Proof. apply fi_eq. rewrite !fv_fi. now cmod. Qed.
Lemma fi_opp x : fi (- x) = fopp (fi x). Proof. apply fi_eq. rewrite !fv_fi. now cmod. Qed.
Lemma fi_0 x : fi x = fi 0 <-> x mod p = 0.
Proof. rewrite fi_eq. split; [intros [E]; rewrite E; apply Z.mod_0_l|intros E; split; rewrite E; symmetry; apply Z.mod_0_l]; assert (H := fp_pos); lia. Qed.
Lemma fp_surj u : exists z, u = fi z. Proof. exists (fv u). symmetry. apply fi_fv. Qed.
Lemma fp_field : field_theory (fi 0) (fi 1) fadd fmul fsub fopp fdiv finv (@eq Fp).
Proof.
  assert (P := fp_pos). constructor.
  - constructor; intros; repeat match goal with u : Fp |- _ => let z := fresh "z" in destruct (fp_surj u) as (z & ->); clear u end;
      rewrite <- ?fi_opp, <- ?fi_sub, <- ?fi_add, <- ?fi_mul, <- ?fi_opp, <- ?fi_add, <- ?fi_mul, <- ?fi_add; f_equal; ring.
  - intros E. apply fi_eq in E. destruct E as [E]. rewrite Z.mod_1_l, Z.mod_0_l in E; lia.
  - reflexivity.
  - intros u N. destruct (fp_surj u) as (z & ->). unfold finv. rewrite <- (fi_fv (fi z)) at 2. rewrite <- fi_mul, fv_fi. apply fi_eq.
    rewrite Z.mul_comm, <- Z.pow_succ_r by lia. replace (Z.succ (p - 2)) with (p - 1) by lia. apply fermat_z; [exact Hp|].
    rewrite Z.mod_mod by lia. intros E. apply N. now apply fi_0.
Qed.
Lemma fp_dec (u v : Fp) : {u = v} + {u <> v}.
Proof. destruct (Z.eq_dec (fv u) (fv v)) as [E|E]; [left; now apply fv_inj|right; now intros ->]. Defined.
End Fp.

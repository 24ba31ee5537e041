(** Congruence of integers as a setoid. *)
From Coq Require Import Setoid Morphisms Zpow_facts.
From Verif Require Import Proofs.Tac.
Local Open Scope Z_scope.

Record cong (p a b : Z) : Prop := Cong { uncong : a mod p = b mod p }.
Arguments uncong {p a b}. Arguments Cong {p a b}.
Global Instance cong_equiv p : Equivalence (cong p).
Proof. split; [split; reflexivity| intros a b [H]; now split | intros a b c [H] [H']; split; congruence]. Qed.
Global Instance add_cong p : Proper (cong p ==> cong p ==> cong p) Z.add.
Proof. intros a b [H] c d [H']. split. rewrite Zplus_mod, H, H', <- Zplus_mod. reflexivity. Qed.
Global Instance sub_cong p : Proper (cong p ==> cong p ==> cong p) Z.sub.
Proof. intros a b [H] c d [H']. split. rewrite Zminus_mod, H, H', <- Zminus_mod. reflexivity. Qed.
Global Instance mul_cong p : Proper (cong p ==> cong p ==> cong p) Z.mul.
Proof. intros a b [H] c d [H']. split. rewrite Zmult_mod, H, H', <- Zmult_mod. reflexivity. Qed.
Global Instance opp_cong p : Proper (cong p ==> cong p) Z.opp.
Proof. intros a b H. rewrite <- !Z.sub_0_l. now rewrite H. Qed.
Global Instance pow_cong p : Proper (cong p ==> eq ==> cong p) Z.pow.
Proof.
  intros a b H e e' <-. destruct (Z.lt_ge_cases e 0) as [N|N]; [now rewrite !Z.pow_neg_r|].
  pattern e. apply natlike_ind; [reflexivity|intros x Hx IH|exact N]. rewrite !Z.pow_succ_r by lia. now rewrite IH, H.
Qed.
Lemma cong_mod p a : cong p (a mod p) a.
Proof. split. apply Zmod_mod. Qed.
Lemma cong_eq p a b : 0 <= a < p -> 0 <= b < p -> cong p a b -> a = b.
Proof. intros A B [H]. now rewrite !Z.mod_small in H. Qed.
Lemma cong_range p a b : cong p a b -> 0 <= b < p -> a mod p = b.
Proof. intros [->] H. now apply Z.mod_small. Qed.
Lemma cong_refl_eq p a b : a = b -> cong p a b.
Proof. intros ->. reflexivity. Qed.
Lemma cong_divide p a b : p <> 0 -> (cong p a b <-> (p | a - b)).
Proof.
  intros P. split; [intros [H]|intros D].
  - apply Z.mod_divide; auto. rewrite Zminus_mod, H, Z.sub_diag. reflexivity.
  - apply Z.mod_divide in D; auto. split. replace a with (a - b + b) by ring. rewrite Zplus_mod, D, Z.add_0_l, Zmod_mod. reflexivity.
Qed.
Lemma cong_period p a k : cong p (a + k * p) a.
Proof. split. apply Z_mod_plus_full. Qed.
Ltac cmod := repeat match goal with |- context[?a mod ?q] => rewrite (cong_mod q a) end.

(** Common tactics and list/octet lemmas. *)
From Coq Require Export ZArith List Bool Lia ZifyBool ZifyNat.
From Verif Require Export Model.Py.
Export ListNotations.
Local Open Scope Z_scope.

Ltac Zify.zify_post_hook ::= Z.div_mod_to_equations.

Lemma len_nil {A} : len (@nil A) = 0.
Proof. reflexivity. Qed.
Lemma len_cons {A} (x : A) l : len (x :: l) = 1 + len l.
Proof. unfold len; cbn [length]; lia. Qed.
Lemma len_app {A} (l1 l2 : list A) : len (l1 ++ l2) = len l1 + len l2.
Proof. unfold len; rewrite app_length; lia. Qed.
Lemma len_nonneg {A} (l : list A) : 0 <= len l.
Proof. unfold len; lia. Qed.
Lemma len_repeat (c n : Z) : len (str_repeat c n) = Z.max 0 n.
Proof. unfold len, str_repeat; rewrite repeat_length; lia. Qed.
Lemma len_map {A B} (f : A -> B) l : len (map f l) = len l.
Proof. unfold len; now rewrite map_length. Qed.
Lemma len_firstn {A} n (l : list A) : len (firstn n l) = Z.min (Z.of_nat n) (len l).
Proof. unfold len; rewrite firstn_length; lia. Qed.
Lemma len_skipn {A} n (l : list A) : len (skipn n l) = Z.max 0 (len l - Z.of_nat n).
Proof. unfold len; rewrite skipn_length; lia. Qed.

Lemma len_0_nil {A} (l : list A) : len l = 0 -> l = [].
Proof. unfold len; destruct l; cbn [length]; [auto|lia]. Qed.

Lemma str_eqb_eq a b : str_eqb a b = true <-> a = b.
Proof.
  revert b; induction a as [|x a IH]; intros [|y b]; cbn; split; intros H;
    try congruence; try discriminate.
  - apply andb_prop in H as [H1 H2]. apply Z.eqb_eq in H1. apply IH in H2. congruence.
  - injection H as -> ->. rewrite Z.eqb_refl. apply IH. reflexivity.
Qed.

Lemma octets_app a b : octets (a ++ b) <-> octets a /\ octets b.
Proof. unfold octets. apply Forall_app. Qed.
Lemma octets_cons a b : octets (a :: b) <-> is_octet a /\ octets b.
Proof. unfold octets. split; [intros H; inversion H; auto | intros []; constructor; auto]. Qed.
Lemma octets_nil : octets [].
Proof. constructor. Qed.
Lemma octets_repeat c n : is_octet c -> octets (str_repeat c n).
Proof.
  intros H; unfold octets, str_repeat. apply Forall_forall. intros x Hx.
  apply repeat_spec in Hx. now subst.
Qed.
Lemma octets_firstn n s : octets s -> octets (firstn n s).
Proof. unfold octets. intros H. rewrite <- (firstn_skipn n s) in H. apply Forall_app in H. tauto. Qed.
Lemma octets_skipn n s : octets s -> octets (skipn n s).
Proof. unfold octets. intros H. rewrite <- (firstn_skipn n s) in H. apply Forall_app in H. tauto. Qed.

Lemma lxor_octet a b : is_octet a -> is_octet b -> is_octet (Z.lxor a b).
Proof.
  unfold is_octet; intros Ha Hb.
  assert (H0 : 0 <= Z.lxor a b) by (apply Z.lxor_nonneg; lia).
  split; [exact H0|].
  destruct (Z.eq_dec (Z.lxor a b) 0) as [E|E]; [lia|].
  apply (Z.log2_lt_pow2 _ 8); [lia|].
  eapply Z.le_lt_trans; [apply Z.log2_lxor; lia|].
  apply Z.max_lub_lt.
  - destruct (Z.eq_dec a 0) as [->|]; [reflexivity|]. apply (Z.log2_lt_pow2 a 8); lia.
  - destruct (Z.eq_dec b 0) as [->|]; [reflexivity|]. apply (Z.log2_lt_pow2 b 8); lia.
Qed.

Lemma bind_ok {A B} (m : res A) (f : A -> res B) b :
  bind m f = Ok b -> exists a, m = Ok a /\ f a = Ok b.
Proof. destruct m; cbn; intros; [eauto|discriminate]. Qed.

Lemma bind_assoc {A B C} (m : res A) (f : A -> res B) (g : B -> res C) :
  bind (bind m f) g = bind m (fun x => bind (f x) g).
Proof. destruct m; reflexivity. Qed.

Lemma py_assert_ok b : py_assert b = Ok tt <-> b = true.
Proof. destruct b; cbn; split; congruence. Qed.

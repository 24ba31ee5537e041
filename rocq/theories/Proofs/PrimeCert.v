(** Primality certificates after Pocklington. *)
From Coq Require Import Znumtheory Zpow_facts.
From Verif Require Import Proofs.Tac Proofs.Pocklington.
Local Open Scope Z_scope.

(** N, a base, and prime powers q^e whose product F divides N - 1 and exceeds the square root of N *)
Record cert := Cert { c_n : Z; c_base : Z; c_fact : list (Z * nat) }.
Definition c_part (fs : list (Z * nat)) : Z := fold_right (fun '(q, e) acc => q ^ Z.of_nat e * acc) 1 fs.
Fixpoint c_cop (fs : list (Z * nat)) : bool :=
  match fs with [] => true | (q, e) :: t => (Z.gcd (q ^ Z.of_nat e) (c_part t) =? 1) && c_cop t end.
Definition check_cert (proven : list Z) (c : cert) : bool :=
  let N := c_n c in
  let F := c_part (c_fact c) in
  (1 <? N) && ((N - 1) mod F =? 0) && (0 <? F) && (N <? (F + 1) * (F + 1)) && (Zpow_mod (c_base c) (N - 1) N =? 1) && c_cop (c_fact c) &&
  forallb (fun '(q, e) => existsb (Z.eqb q) proven && (0 <? e)%nat && (Z.gcd (Zpow_mod (c_base c) ((N - 1) / q) N - 1) N =? 1)) (c_fact c).
Fixpoint check_certs (proven : list Z) (cs : list cert) : bool :=
  match cs with
  | [] => true
  | c :: cs => check_cert proven c && check_certs (c_n c :: proven) cs
  end.

Lemma prime_divisor n : 1 < n -> exists p, prime p /\ (p | n).
Proof.
  intros H. assert (G : 0 <= n) by lia. revert H. pattern n. apply Z_lt_induction; [|exact G]. intros x IH Hx.
  destruct (prime_dec x) as [P|P]; [exists x; split; [exact P|apply Z.divide_refl]|].
  apply not_prime_divide in P as (y & Hy & D); [|exact Hx]. destruct (IH y) as (p & Pp & Dp); [lia|lia|].
  exists p. split; [exact Pp|]. eapply Z.divide_trans; eauto.
Qed.
Lemma small_divisor n : 1 < n -> ~ prime n -> exists p, prime p /\ (p | n) /\ p * p <= n.
Proof.
  intros H P. apply not_prime_divide in P as (y & Hy & [z D]); [|exact H].
  assert (X : exists m, 1 < m /\ (m | n) /\ m * m <= n).
  { destruct (Z.le_gt_cases y z); [exists y|exists z]; (split; [nia|]); (split; [|nia]); [exists z|exists y]; lia. }
  destruct X as (m & M1 & M2 & M3). destruct (prime_divisor m M1) as (p & Pp & Dp). exists p. split; [exact Pp|].
  split; [eapply Z.divide_trans; eauto|]. apply Z.divide_pos_le in Dp; [|lia]. assert (Q := prime_ge_2 p Pp). nia.
Qed.
Lemma check_cert_sound proven c : Forall prime proven -> check_cert proven c = true -> prime (c_n c).
Proof.
  intros HP H. unfold check_cert in H. cbv zeta in H. rewrite !andb_true_iff in H. destruct H as ((((((H1 & H2) & H3) & H4) & H5) & H6) & H7).
  set (N := c_n c) in *. set (F := c_part (c_fact c)) in *.
  destruct (prime_dec N) as [P|P]; [exact P|exfalso]. apply small_divisor in P as (p & Pp & Dp & S); [|lia].
  assert (Q : forall fs, c_cop fs = true -> (c_part fs | F) ->
    forallb (fun '(q, e) => existsb (Z.eqb q) proven && (0 <? e)%nat && (Z.gcd (Zpow_mod (c_base c) ((N - 1) / q) N - 1) N =? 1)) fs = true -> (c_part fs | p - 1)).
  { induction fs as [|[q e] fs IH]; intros C D A; [apply Z.divide_1_l|]. cbn [c_cop] in C. apply andb_true_iff in C as (C1 & C2).
    cbn [forallb] in A. rewrite !andb_true_iff in A. destruct A as (((A1 & A2) & A3) & A4). apply Z.eqb_eq in C1.
    change (c_part ((q, e) :: fs)) with (q ^ Z.of_nat e * c_part fs) in *.
    apply existsb_exists in A1 as (q' & I & E). apply Z.eqb_eq in E. subst q'. rewrite Forall_forall in HP. specialize (HP q I).
    apply Z.eqb_eq in A3. apply Z.ltb_lt in H1. rewrite Zpow_mod_correct in A3 by lia. apply Z.eqb_eq in H5. rewrite Zpow_mod_correct in H5 by lia.
    assert (DF : (F | N - 1)) by (apply Z.mod_divide; lia).
    assert (Dq : (q ^ Z.of_nat e | p - 1)).
    { apply (@pock_step N p (c_base c) q e); auto; [apply Nat.ltb_lt; exact A2|].
      eapply Z.divide_trans; [|exact DF]. eapply Z.divide_trans; [|exact D]. apply Z.divide_factor_l. }
    assert (Df : (c_part fs | p - 1)) by (apply IH; auto; eapply Z.divide_trans; [apply Z.divide_factor_r|exact D]).
    destruct Dq as [u U]. rewrite U in Df |- *. rewrite Z.mul_comm in Df. apply Gauss in Df; [|apply rel_prime_sym, Zgcd_1_rel_prime; exact C1].
    destruct Df as [v V]. exists v. rewrite V. ring. }
  specialize (Q _ H6 (Z.divide_refl _) H7). fold F in Q. assert (X := prime_ge_2 p Pp). apply Z.divide_pos_le in Q; [|lia].
  nia.
Qed.
Lemma check_certs_sound cs : forall proven, Forall prime proven -> check_certs proven cs = true -> Forall prime (map c_n cs).
Proof.
  induction cs as [|c cs IH]; intros proven HP H; [constructor|]. cbn [check_certs] in H. apply andb_true_iff in H as (H1 & H2).
  apply check_cert_sound in H1; [|exact HP]. constructor; [exact H1|]. apply (IH (c_n c :: proven)); auto.
Qed.
Definition all_proven (cs : list cert) : bool := check_certs [2] cs.
Lemma cert_prime cs n : all_proven cs = true -> In n (map c_n cs) -> prime n.
Proof.
  intros H I. apply check_certs_sound in H; [|constructor; [apply prime_2|constructor]]. rewrite Forall_forall in H. auto.
Qed.
Lemma p5 : prime 5. Proof. apply (cert_prime [Cert 5 2 [(2, 2%nat)]]); [vm_compute; reflexivity|now left]. Qed.

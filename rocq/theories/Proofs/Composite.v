(** Numbers shown composite by a factor or by Fermat's theorem. *)
From Coq Require Import ZArith List Znumtheory Setoid Lia Bool.
From Verif Require Import Proofs.Cong Proofs.NTBasic Proofs.Primality Proofs.Limbs Proofs.ModRep Proofs.BrainpoolCerts.
Local Open Scope Z_scope.

Fixpoint pw (M : modulus) (x : lm) (e : positive) : lm :=
  match e with
  | xH => x
  | xO e => let y := pw M x e in mul M y y
  | xI e => let y := pw M x e in mul M (mul M y y) x
  end.
Definition composite_check (q : Z) (c : cert) : bool :=
  match c with
  | Fac r => (1 <? r) && (r <? q) && (q mod r =? 0)
  | Fer k r2 w =>
      let M := make' k q r2 in
      modulus_ok k q r2 && (2 <? q) &&
      match q - 1 with
      | Zpos e => eqm M (mul M (sub M (pw M (conv M k 2) e) (m_one M)) (conv M k w)) (m_one M)
      | _ => false
      end
  end.
Lemma composite_ok q c : composite_check q c = true -> ~ prime q.
Proof.
  destruct c as [r|k r2 w]; cbn [composite_check].
  - rewrite !andb_true_iff. intros ((H1 & H2) & H3) Hq. apply Z.ltb_lt in H1, H2. apply Z.eqb_eq in H3.
    apply Z.mod_divide in H3; [|lia]. destruct (prime_divisors q Hq r H3) as [D|[D|[D|D]]]; lia.
  - cbv zeta. destruct k as [|k]; [intros H; exfalso; unfold modulus_ok in H; cbv zeta in H; rewrite !andb_true_iff in H; intuition discriminate|].
    rewrite !andb_true_iff. intros ((OK & Q2) & H) Hq. apply Z.ltb_lt in Q2.
    destruct (q - 1) as [|e|] eqn:E; try discriminate H.
    pose proof (Z.divide_refl q) as Dq. set (M := make' (S k) q r2) in *.
    assert (C2 : rep k q q 3 (conv M (S k) 2) 2).
    { apply (rep_conv k q r2 OK q Hq Dq). split; [lia|]. change B with (2 ^ 30). rewrite <- Z.pow_mul_r by lia. change 2 with (2 ^ 1) at 1. apply Z.pow_lt_mono_r; lia. }
    assert (P : forall e, rep k q q 3 (pw M (conv M (S k) 2) e) (2 ^ Zpos e)).
    { clear - OK Hq C2. assert (RM : forall x y u v, rep k q q 3 x u -> rep k q q 3 y v -> rep k q q 3 (mul M x y) (u * v)).
      { intros x0 y0 u v U V. apply (rep_le k q r2 OK q 2 3); [|lia]. exact (rep_mul k q r2 OK q Hq (Z.divide_refl q) _ _ _ _ _ _ U V ltac:(lia) ltac:(lia) ltac:(lia)). }
      induction e as [e IH|e IH|]; cbn [pw]; cbv zeta.
      - replace (2 ^ Z.pos e~1) with (2 ^ Zpos e * 2 ^ Zpos e * 2); [now apply RM; [apply RM|]|].
        replace (Z.pos e~1) with (Zpos e + Zpos e + 1) by lia. rewrite (Z.pow_add_r 2 (Zpos e + Zpos e)), (Z.pow_add_r 2 (Zpos e)) by lia. ring.
      - replace (2 ^ Z.pos e~0) with (2 ^ Zpos e * 2 ^ Zpos e); [now apply RM|].
        replace (Z.pos e~0) with (Zpos e + Zpos e) by lia. rewrite (Z.pow_add_r 2 (Zpos e)) by lia. ring.
      - exact C2. }
    pose proof (rep_sub k q r2 OK q Hq Dq _ _ _ _ _ _ (P e) (rep_one k q r2 OK q Hq Dq) ltac:(lia) ltac:(lia)) as D. fold M in D.
    apply (unit_witness k q r2 OK q Hq Dq _ _ _ _ D) in H; try lia. apply H. rewrite <- E.
    assert (F : cong q (2 ^ (q - 1)) 1) by (apply fermat_z; [exact Hq|rewrite Z.mod_small; lia]).
    assert (G : cong q (2 ^ (q - 1) - 1) 0) by (rewrite F; apply cong_refl_eq; ring). destruct G as [G]. rewrite G. apply Z.mod_0_l. lia.
Qed.
Fixpoint composites (q p : Z) (l : list cert) : bool :=
  match l with nil => q =? p | cons c l => composite_check q c && composites (q + 4) p l end.
Lemma composites_ok p l : forall q, q mod 4 = 3 -> composites q p l = true -> q <= p /\ forall m, q <= m < p -> m mod 4 = 3 -> ~ prime m.
Proof.
  induction l as [|c l IH]; intros q Q H; cbn [composites] in H.
  - apply Z.eqb_eq in H. subst q. split; [lia|]. intros m M. lia.
  - apply andb_prop in H as [H1 H2]. apply composite_ok in H1.
    assert (Q4 : (q + 4) mod 4 = 3) by (replace (q + 4) with (q + 1 * 4) by ring; rewrite Z.mod_add by lia; exact Q).
    destruct (IH (q + 4) Q4 H2) as (L & C). split; [lia|]. intros m M M3.
    destruct (Z.eq_dec m q) as [->|N]; [exact H1|]. apply C; [|exact M3]. clear - M M3 Q N. Z.div_mod_to_equations. lia.
Qed.

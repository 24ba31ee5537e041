(** factorization, phi, carmichael, order_mod, largest_factor_relatively_prime. *)
From Coq Require Import Znumtheory Zpow_facts Setoid Morphisms Sorted.
From Verif Require Import Proofs.Tac Model.NumberTheory Spec.NumberSpec Proofs.Jacobi Proofs.Cong Proofs.Sqrt Proofs.NTBasic Proofs.PrimeCert Proofs.Legendre Proofs.Primality Proofs.PrimeFacts Proofs.UnitRoots Proofs.RabinMiller Proofs.Pseudoprime.
Local Open Scope Z_scope.

Lemma strip_small_mono f : forall d n q c x f', strip_small f d n q c = Ok x -> (f <= f')%nat -> strip_small f' d n q c = Ok x.
Proof.
  induction f as [|f IH]; intros d n q c x f' H L; destruct f' as [|f']; cbn [strip_small] in *; destruct (d <=? n); try congruence; try lia.
  destruct (negb (q mod d =? 0)); [congruence|]. eapply IH; [exact H|lia].
Qed.
Lemma factor_small_mono f f' ds : (f <= f')%nat -> forall n res x, factor_small f ds n res = Ok x -> factor_small f' ds n res = Ok x.
Proof.
  intros L. induction ds as [|d ds IH]; intros n res x H; cbn [factor_small] in *; [exact H|]. destruct (n <? d); [exact H|]. destruct (n mod d =? 0); [|auto].
  destruct (strip_small f d n (n / d) 1) as [(n', c)|] eqn:E; cbn [bind] in H; [|congruence]. rewrite (strip_small_mono _ _ _ _ _ _ f' E L). cbn [bind]. auto.
Qed.
Lemma strip_large_mono f : forall d n c x f', strip_large f d n c = Ok x -> (f <= f')%nat -> strip_large f' d n c = Ok x.
Proof.
  induction f as [|f IH]; intros d n c x f' H L; destruct f' as [|f']; cbn [strip_large] in *; destruct (d <=? n); try congruence; try lia.
  destruct (negb (n mod d =? 0)); [congruence|]. eapply IH; [exact H|lia].
Qed.
Lemma factor_large_mono f : forall d n res x f', factor_large f d n res = Ok x -> (f <= f')%nat -> factor_large f' d n res = Ok x.
Proof.
  induction f as [|f IH]; intros d n res x f' H L; [discriminate|]. destruct f' as [|f']; [lia|]. cbn [factor_large] in *.
  destruct (n / (d + 2) <? d + 2); [exact H|]. destruct (n mod (d + 2) =? 0); [|eapply IH; [exact H|lia]].
  destruct (strip_large (Datatypes.S f) (d + 2) (n / (d + 2)) 1) as [(n', c)|] eqn:E; cbn [bind] in H; [|discriminate].
  rewrite (strip_large_mono _ _ _ _ _ (Datatypes.S f') E L). cbn [bind]. eapply IH; [exact H|lia].
Qed.
Lemma factorization_mono nb f f' n x : (f <= f')%nat -> factorization nb f n = Ok x -> factorization nb f' n = Ok x.
Proof.
  intros L. unfold factorization. destruct (n <? 2); [auto|]. destruct (factor_small f smallprimes n []) as [(n', res)|] eqn:E; cbn [bind]; [|discriminate].
  rewrite (factor_small_mono f f' _ L _ _ _ E). cbn [bind]. destruct (smallprimes_last <? n'); [|auto].
  destruct (is_prime nb f n') as [b|] eqn:E2; cbn [bind]; [|discriminate]. rewrite (is_prime_mono _ _ _ _ f' E2 L). cbn [bind]. destruct b; [auto|].
  destruct (factor_large f smallprimes_last n' res) as [(n'', res')|] eqn:E3; cbn [bind]; [|discriminate]. rewrite (factor_large_mono _ _ _ _ _ f' E3 L). auto.
Qed.

(** ** division by the small primes *)
Lemma strip_small_spec f : forall d n q c, 2 <= d -> 1 <= n -> n = d * q -> 1 <= c -> (Z.to_nat n <= f)%nat ->
  exists n' c', strip_small f d n q c = Ok (n', c') /\ 1 <= n' /\ c <= c' /\ d ^ c * q = d ^ c' * n' /\ ~ (d | n').
Proof.
  induction f as [|f IH]; intros d n q c D N E C F; [lia|]. assert (Q : 1 <= q) by nia. cbn [strip_small]. replace (d <=? n) with true by nia.
  destruct (q mod d =? 0) eqn:R; cbn [negb].
  - apply Z.eqb_eq in R. assert (E' : q = d * (q / d)) by (apply Z_div_exact_full_2; lia).
    destruct (IH d q (q / d) (c + 1)) as (n' & c' & E1 & N' & C' & P & ND); [lia|lia|exact E'|lia|nia|].
    exists n', c'. split; [exact E1|]. split; [exact N'|]. split; [lia|]. split; [|exact ND]. rewrite <- P, Z.pow_add_r, Z.pow_1_r by lia. rewrite E' at 1. ring.
  - exists q, c. split; [reflexivity|]. split; [exact Q|]. split; [lia|]. split; [reflexivity|]. intros X. apply Zdivide_mod in X. lia.
Qed.
Lemma ppower_nil : ppower_product [] = 1. Proof. reflexivity. Qed.
Lemma ppower_cons p e l : ppower_product ((p, e) :: l) = p ^ e * ppower_product l. Proof. reflexivity. Qed.
Lemma ppower_app l l' : ppower_product (l ++ l') = ppower_product l * ppower_product l'.
Proof. induction l as [|(p, e) l IH]; [cbn [app]; rewrite ppower_nil; ring|]. cbn [app]. rewrite !ppower_cons, IH. ring. Qed.
Lemma factor_small_spec f ds : Forall prime ds -> StronglySorted Z.lt ds -> forall n res, 1 <= n -> (Z.to_nat n <= f)%nat ->
  exists n' l, factor_small f ds n res = Ok (n', res ++ l) /\ 1 <= n' /\ n = ppower_product l * n' /\
    Forall (fun x => In (fst x) ds /\ 1 <= snd x) l /\ StronglySorted Z.lt (map fst l) /\ (forall q, In q ds -> ~ (q | n')).
Proof.
  intros PR SS. induction SS as [|d ds SS IH LT]; intros n res N F; cbn [factor_small].
  { exists n, []. rewrite app_nil_r. cbn [map]; rewrite ppower_nil. repeat split; auto; try lia; try constructor. }
  apply Forall_cons_iff in PR as (Pd & PR). assert (D2 := prime_ge_2 d Pd). specialize (IH PR).
  destruct (n <? d) eqn:ND.
  { exists n, []. rewrite app_nil_r. cbn [map]; rewrite ppower_nil. repeat split; auto; try lia; try constructor.
    intros q Q X. apply Z.divide_pos_le in X; [|lia]. destruct Q as [<-|Q]; [lia|]. rewrite Forall_forall in LT. specialize (LT q Q). lia. }
  destruct (n mod d =? 0) eqn:R.
  - apply Z.eqb_eq in R. assert (E : n = d * (n / d)) by (apply Z_div_exact_full_2; lia).
    destruct (strip_small_spec f d n (n / d) 1) as (n1 & c & -> & N1 & C & P & NDV); [lia|lia|exact E|lia|exact F|]. cbn [bind].
    rewrite Z.pow_1_r, <- E in P. assert (PC : 0 < d ^ c) by (apply Z.pow_pos_nonneg; lia).
    destruct (IH n1 (res ++ [(d, c)]) N1) as (n' & l & E1 & N' & PP & FA & S & ND'); [nia|].
    exists n', ((d, c) :: l). rewrite E1, <- app_assoc. split; [reflexivity|]. split; [exact N'|].
    assert (DIV : (n' | n1)) by (exists (ppower_product l); lia).
    split; [|split; [|split]].
    + rewrite ppower_cons. rewrite P, PP. ring.
    + constructor; [cbn; split; [now left|lia]|]. eapply Forall_impl; [|exact FA]. cbn. intros x (A & B). split; [now right|exact B].
    + cbn [map fst]. constructor; [exact S|]. apply Forall_map. eapply Forall_impl; [|exact FA]. cbn. intros x (A & _). rewrite Forall_forall in LT. now apply LT.
    + intros q [<-|Q]; [|now apply ND']. intros X. apply NDV. now apply Z.divide_trans with n'.
  - destruct (IH n res N F) as (n' & l & E1 & N' & PP & FA & S & ND'). exists n', l. split; [exact E1|]. split; [exact N'|]. split; [exact PP|].
    split; [eapply Forall_impl; [|exact FA]; cbn; intros x (A & B); split; [now right|exact B]|]. split; [exact S|].
    intros q [<-|Q]; [|now apply ND']. intros X. assert (Y : (d | n)) by (rewrite PP; now apply Z.divide_mul_r). apply Zdivide_mod in Y. lia.
Qed.

(** ** trial division *)
Lemma strip_large_spec f : forall d n c, 2 <= d -> 1 <= n -> 1 <= c -> (Z.to_nat n <= f)%nat ->
  exists n' c', strip_large f d n c = Ok (n', c') /\ 1 <= n' <= n /\ c <= c' /\ d ^ c * n = d ^ c' * n' /\ ~ (d | n').
Proof.
  induction f as [|f IH]; intros d n c D N C F; [lia|]. cbn [strip_large]. destruct (d <=? n) eqn:DN.
  - destruct (n mod d =? 0) eqn:R; cbn [negb].
    + apply Z.eqb_eq in R. assert (E : n = d * (n / d)) by (apply Z_div_exact_full_2; lia). assert (Q1 : 1 <= n / d) by nia.
      destruct (IH d (n / d) (c + 1)) as (n' & c' & E1 & N' & C' & P & ND); [lia|lia|lia|nia|].
      exists n', c'. split; [exact E1|]. split; [nia|]. split; [lia|]. split; [|exact ND]. rewrite <- P, Z.pow_add_r, Z.pow_1_r by lia. rewrite E at 1. ring.
    + exists n, c. split; [reflexivity|]. split; [lia|]. split; [lia|]. split; [reflexivity|]. intros X. apply Zdivide_mod in X. lia.
  - exists n, c. split; [reflexivity|]. split; [lia|]. split; [lia|]. split; [reflexivity|]. intros X. apply Z.divide_pos_le in X; lia.
Qed.
Lemma factor_large_spec f : forall d n res, 3 <= d -> d mod 2 = 1 -> 1 <= n -> (forall q, prime q -> (q | n) -> d < q) -> (Z.to_nat n + Z.to_nat (n - d) + 1 <= f)%nat ->
  exists n' l, factor_large f d n res = Ok (n', res ++ l) /\ 1 <= n' /\ n = ppower_product l * n' /\
    Forall (fun x => prime (fst x) /\ d < fst x /\ 1 <= snd x) l /\ StronglySorted Z.lt (map fst l) /\
    (n' = 1 \/ prime n' /\ d < n' /\ Forall (fun x => fst x < n') l).
Proof.
  induction f as [|f IH]; intros d n res D3 Od N SM F; [lia|]. cbn [factor_large]. assert (B := Z.div_mod n (d + 2) ltac:(lia)). assert (M := Z.mod_pos_bound n (d + 2) ltac:(lia)).
  assert (SM2 : forall q, prime q -> (q | n) -> d + 2 <= q).
  { intros q Q X. specialize (SM q Q X). assert (q <> d + 1); [|lia]. intros ->. apply odd_of_prime in Q; lia. }
  destruct (n / (d + 2) <? d + 2) eqn:Q.
  - exists n, []. rewrite app_nil_r. cbn [map]; rewrite ppower_nil. split; [reflexivity|]. split; [exact N|]. split; [lia|]. split; [constructor|]. split; [constructor|].
    destruct (Z.eq_dec n 1) as [->|N1]; [now left|right]. destruct (prime_dec n) as [P|P].
    + split; [exact P|]. split; [apply SM; [exact P|reflexivity]|constructor].
    + exfalso. apply small_divisor in P as (q & Q1 & Q2 & Q3); [|lia]. specialize (SM2 q Q1 Q2). nia.
  - destruct (n mod (d + 2) =? 0) eqn:R.
    + assert (E : n = (d + 2) * (n / (d + 2))) by lia.
      assert (PD : prime (d + 2)). { destruct (prime_divisor (d + 2)) as (q & Q1 & Q2); [lia|]. assert (X : (q | n)) by (rewrite E; now apply Z.divide_mul_l).
        specialize (SM2 q Q1 X). apply Z.divide_pos_le in Q2; [|lia]. now replace (d + 2) with q by lia. }
      destruct (strip_large_spec (Datatypes.S f) (d + 2) (n / (d + 2)) 1) as (n1 & c & -> & N1 & C & P & NDV); [lia|lia|lia|nia|]. cbn [bind].
      rewrite Z.pow_1_r, <- E in P. assert (DIV1 : (n1 | n)) by (exists ((d + 2) ^ c); exact P).
      destruct (IH (d + 2) n1 (res ++ [(d + 2, c)])) as (n' & l & E1 & N' & PP & FA & S & LAST); [lia|lia|lia| |nia|].
      { intros q Q1 Q2. assert (X := SM2 q Q1 ltac:(eapply Z.divide_trans; eauto)). assert (q <> d + 2) by congruence. lia. }
      exists n', ((d + 2, c) :: l). rewrite E1, <- app_assoc. split; [reflexivity|]. split; [exact N'|]. split; [|split; [|split]].
      * rewrite ppower_cons. rewrite P, PP. ring.
      * constructor; [cbn; split; [exact PD|lia]|]. eapply Forall_impl; [|exact FA]. cbn. intros x (X & Y & V). split; [exact X|]. lia.
      * cbn [map fst]. constructor; [exact S|]. apply Forall_map. eapply Forall_impl; [|exact FA]. cbn. intros x (_ & X & _). lia.
      * destruct LAST as [->|(X & Y & V)]; [now left|right]. split; [exact X|]. split; [lia|]. constructor; [cbn; lia|exact V].
    + destruct (IH (d + 2) n res) as (n' & l & E1 & N' & PP & FA & S & LAST); [lia|lia|lia| |nia|].
      { intros q Q1 Q2. assert (X := SM2 q Q1 Q2). assert (q <> d + 2); [|lia]. intros ->. apply Zdivide_mod in Q2. lia. }
      exists n', l. split; [exact E1|]. split; [exact N'|]. split; [exact PP|]. split; [|split; [exact S|]].
      * eapply Forall_impl; [|exact FA]. cbn. intros x (X & Y & V). split; [exact X|]. lia.
      * destruct LAST as [->|(X & Y & V)]; [now left|right]. split; [exact X|]. split; [lia|exact V].
Qed.
Lemma ssorted_snoc l x : StronglySorted Z.lt l -> Forall (fun y => y < x) l -> StronglySorted Z.lt (l ++ [x]).
Proof.
  intros S F. induction S as [|y l S IH L]; [repeat constructor|]. apply Forall_cons_iff in F as (F1 & F2). cbn. constructor; [now apply IH|].
  apply Forall_app. split; [exact L|]. repeat constructor. exact F1.
Qed.
Lemma ssorted_app l l' : StronglySorted Z.lt l -> StronglySorted Z.lt l' -> (forall x y, In x l -> In y l' -> x < y) -> StronglySorted Z.lt (l ++ l').
Proof.
  intros S S' H. induction S as [|y l S IH L]; [exact S'|]. cbn. constructor; [apply IH; intros a b A B; apply H; [now right|exact B]|].
  apply Forall_app. split; [exact L|]. apply Forall_forall. intros z Z1. apply H; [now left|exact Z1].
Qed.
Lemma c52_factorization : forall n_bits n, 2 <= n -> exists fuel0 l,
  (forall fuel, (fuel0 <= fuel)%nat -> factorization n_bits fuel n = Ok l) /\
  ppower_product l = n /\ StronglySorted Z.lt (map fst l) /\ Forall (fun x => 1 <= snd x) l /\
  Forall (fun x => prime (fst x) \/ 1231 * 1231 <= fst x /\ snd x = 1 /\ exists fuel1, forall fuel, (fuel1 <= fuel)%nat -> is_prime n_bits fuel (fst x) = Ok true) l.
Proof.
  intros nb n Hn. destruct c58_smallprimes as (SP & SS).
  assert (FP : Forall prime smallprimes) by (apply Forall_forall; intros q Q; now apply SP in Q).
  destruct (factor_small_spec (Z.to_nat n) smallprimes FP SS n [] ltac:(lia) (le_n _)) as (n1 & l1 & E1 & N1 & P1 & F1 & S1 & ND1). cbn [app] in E1.
  assert (F1' : Forall (fun x => prime (fst x) /\ fst x <= 1229 /\ 1 <= snd x) l1).
  { eapply Forall_impl; [|exact F1]. cbn. intros x (A & B). apply SP in A. tauto. }
  assert (SM : forall q, prime q -> (q | n1) -> 1229 < q). { intros q Q D. destruct (Z_le_gt_dec q 1229); [|lia]. exfalso. apply (ND1 q); auto. apply SP. auto. }
  assert (PR : forall x : Z * Z, prime (fst x) -> prime (fst x) \/ 1231 * 1231 <= fst x /\ snd x = 1 /\ exists fuel1, forall fuel, (fuel1 <= fuel)%nat -> is_prime nb fuel (fst x) = Ok true) by auto.
  destruct (smallprimes_last <? n1) eqn:LG; unfold smallprimes_last in LG.
  2: { assert (n1 = 1). { destruct (Z.eq_dec n1 1); [assumption|exfalso]. destruct (prime_divisor n1) as (q & Q & D); [lia|]. assert (X := SM q Q D). apply Z.divide_pos_le in D; lia. }
    subst n1. exists (Z.to_nat n), l1. split; [|split; [lia|split; [exact S1|split]]].
    - intros fuel F. apply (factorization_mono nb (Z.to_nat n)); [exact F|]. unfold factorization. replace (n <? 2) with false by lia. rewrite E1. cbn [bind].
      unfold smallprimes_last. now rewrite LG.
    - eapply Forall_impl; [|exact F1']. cbn. tauto.
    - eapply Forall_impl; [|exact F1']. cbn. intros x X. left. tauto. }
  assert (TL : Forall (fun y => y < n1) (map fst l1)). { apply Forall_map. eapply Forall_impl; [|exact F1']. cbn. intros x X. lia. }
  destruct (is_prime_total' nb n1) as (f2 & b & E2). destruct b.
  { exists (Z.to_nat n + f2)%nat, (l1 ++ [(n1, 1)]). split; [|split; [|split; [|split]]].
    - intros fuel F. unfold factorization. replace (n <? 2) with false by lia. rewrite (factor_small_mono (Z.to_nat n) fuel _ ltac:(lia) _ _ _ E1). cbn [bind].
      unfold smallprimes_last. rewrite LG, E2 by lia. reflexivity.
    - rewrite ppower_app. rewrite ppower_cons, ppower_nil. rewrite Z.pow_1_r. lia.
    - rewrite map_app. now apply ssorted_snoc.
    - apply Forall_app. split; [eapply Forall_impl; [|exact F1']; cbn; tauto|repeat constructor; cbn; lia].
    - apply Forall_app. split; [eapply Forall_impl; [|exact F1']; cbn; intros x X; left; tauto|]. constructor; [|constructor]. cbn [fst snd].
      destruct (prime_dec n1) as [P|P]; [now left|right]. split; [|split; [reflexivity|exists f2; exact E2]].
      apply small_divisor in P as (q & Q1 & Q2 & Q3); [|lia]. specialize (SM q Q1 Q2). assert (q <> 1230) by (intros ->; apply odd_of_prime in Q1; [discriminate|lia]). nia. }
  destruct (factor_large_spec (Z.to_nat n1 + Z.to_nat (n1 - 1229) + 1) 1229 n1 l1) as (n' & l & E3 & N' & PP & FA & S & LAST); [lia|reflexivity|lia|exact SM|lia|].
  assert (SL : StronglySorted Z.lt (map fst (l1 ++ l))).
  { rewrite map_app. apply ssorted_app; auto. intros x y X Y. apply in_map_iff in X as (x' & <- & X). apply in_map_iff in Y as (y' & <- & Y).
    rewrite Forall_forall in F1', FA. specialize (F1' x' X). specialize (FA y' Y). cbn beta in F1', FA. clear - F1' FA. lia. }
  exists (Z.to_nat n + f2 + (Z.to_nat n1 + Z.to_nat (n1 - 1229) + 1))%nat, (if 1 <? n' then (l1 ++ l) ++ [(n', 1)] else l1 ++ l). split; [|].
  - intros fuel F. unfold factorization. replace (n <? 2) with false by lia. rewrite (factor_small_mono (Z.to_nat n) fuel _ ltac:(lia) _ _ _ E1). cbn [bind].
    unfold smallprimes_last. rewrite LG, E2 by lia. cbn [bind]. rewrite (factor_large_mono _ _ _ _ _ fuel E3 ltac:(lia)). reflexivity.
  - assert (FX : Forall (fun x => 1 <= snd x) (l1 ++ l)). { apply Forall_app. split; [eapply Forall_impl; [|exact F1']; cbn; tauto|eapply Forall_impl; [|exact FA]; cbn; tauto]. }
    assert (FY : Forall (fun x => prime (fst x) \/ 1231 * 1231 <= fst x /\ snd x = 1 /\ exists fuel1, forall fuel, (fuel1 <= fuel)%nat -> is_prime nb fuel (fst x) = Ok true) (l1 ++ l)).
    { apply Forall_app. split; [eapply Forall_impl; [|exact F1']; cbn; intros x X; left; tauto|eapply Forall_impl; [|exact FA]; cbn; intros x X; left; tauto]. }
    destruct LAST as [->|(X & Y & V)].
    + replace (1 <? 1) with false by reflexivity. split; [rewrite ppower_app; nia|]. auto.
    + replace (1 <? n') with true by (apply prime_ge_2 in X; lia). split; [|split; [|split]].
      * rewrite !ppower_app. rewrite ppower_cons, ppower_nil. rewrite Z.pow_1_r. nia.
      * rewrite map_app. apply ssorted_snoc; [exact SL|]. rewrite map_app. apply Forall_app. split; [apply Forall_map; eapply Forall_impl; [|exact F1']; cbn; intros; lia|].
        apply Forall_map. exact V.
      * apply Forall_app. split; [exact FX|repeat constructor; cbn; lia].
      * apply Forall_app. split; [exact FY|constructor; [left; exact X|constructor]].
Qed.
(** the result is the prime factorisation unless is_prime accepts a composite divisor of n *)
Definition is_prime_exact (n_bits : Z -> Z) (n : Z) : Prop :=
  forall q, (q | n) -> 1231 * 1231 <= q -> (exists fuel1, forall fuel, (fuel1 <= fuel)%nat -> is_prime n_bits fuel q = Ok true) -> prime q.
Lemma fst_divides l x : In x l -> (forall y, In y l -> 1 <= snd y) -> (fst x | ppower_product l).
Proof.
  induction l as [|(p, e) l IH]; intros I H; [destruct I|]. rewrite ppower_cons. destruct I as [<-|I].
  - apply Z.divide_mul_l. cbn [fst]. specialize (H (p, e) ltac:(now left)). cbn in H. exists (p ^ (e - 1)). rewrite Z.mul_comm, <- Z.pow_succ_r by lia. f_equal. lia.
  - apply Z.divide_mul_r. apply IH; auto. intros y Y. apply H. now right.
Qed.
Lemma c52_exact : forall n_bits n, 2 <= n -> is_prime_exact n_bits n -> exists fuel0 l,
  (forall fuel, (fuel0 <= fuel)%nat -> factorization n_bits fuel n = Ok l) /\ prime_factors n l.
Proof.
  intros nb n N EX. destruct (c52_factorization nb n N) as (f0 & l & E & P & S & F1 & F2). exists f0, l. split; [exact E|]. split; [exact P|]. split; [exact S|].
  rewrite Forall_forall in *. intros x X. split; [|now apply F1]. destruct (F2 x X) as [?|(A & _ & B)]; [assumption|]. apply EX; auto. rewrite <- P. apply fst_divides; auto.
Qed.
Lemma c52_small : forall n_bits n, 2 <= n < 1231 * 1231 -> exists fuel0 l,
  (forall fuel, (fuel0 <= fuel)%nat -> factorization n_bits fuel n = Ok l) /\ prime_factors n l.
Proof.
  intros nb n N. apply c52_exact; [lia|]. intros q D Q _. apply Z.divide_pos_le in D; lia.
Qed.
Lemma c52_prime_factors_refuted : exists n, 2 <= n /\ ~ prime n /\ forall n_bits, 250 <= n_bits n < 300 ->
  exists fuel0, forall fuel, (fuel0 <= fuel)%nat -> factorization n_bits fuel n = Ok [(n, 1)].
Proof.
  exists spsp. split; [discriminate|]. split.
  { intros P. assert (D : (Pseudoprime.f1 | spsp)) by (apply Z.mod_divide; [discriminate|vm_compute; reflexivity]).
    apply prime_divisors in D; [|exact P]. unfold spsp, Pseudoprime.f1 in D. lia. }
  intros nb H. destruct (is_prime_total' nb spsp) as (f0 & b & E). destruct (spsp_accepted nb H) as (f1 & E1).
  exists (f0 + f1)%nat. intros fuel L. unfold factorization.
  replace (spsp <? 2) with false by reflexivity.
  assert (X : factor_small 0 smallprimes spsp [] = Ok (spsp, [])) by (vm_compute; reflexivity).
  rewrite (factor_small_mono 0 fuel _ ltac:(lia) _ _ _ X). cbn [bind]. replace (smallprimes_last <? spsp) with true by reflexivity. rewrite E1 by lia. reflexivity.
Qed.

(** ** phi *)
Lemma prime_divides_pow p q e : prime p -> prime q -> 0 <= e -> (p | q ^ e) -> p = q.
Proof.
  intros Hp Hq E D. destruct (Z.eq_dec e 0) as [->|]; [apply Z.divide_1_r in D; apply prime_ge_2 in Hp; lia|].
  apply prime_power_prime in D; auto.
Qed.
Lemma not_divides_product l q : prime q -> Forall (fun x => prime (fst x) /\ 1 <= snd x) l -> ~ In q (map fst l) -> ~ (q | ppower_product l).
Proof.
  intros Hq F NI D. induction F as [|(p, e) l (Hp & He) F IH]; [apply Z.divide_1_r in D; apply prime_ge_2 in Hq; lia|].
  rewrite ppower_cons in D. apply prime_mult in D as [D|D]; [| |exact Hq].
  - apply NI. left. cbn [fst snd] in *. symmetry. apply (prime_divides_pow q p e); auto. lia.
  - apply IH; auto. intros I. apply NI. now right.
Qed.
Lemma ppower_pos l : Forall (fun x => prime (fst x) /\ 1 <= snd x) l -> 0 < ppower_product l.
Proof.
  intros F. induction F as [|(p, e) l (Hp & He) F IH]; [reflexivity|]. rewrite ppower_cons. cbn [fst snd] in *. apply prime_ge_2 in Hp.
  assert (0 < p ^ e) by (apply Z.pow_pos_nonneg; lia). nia.
Qed.
Lemma ssorted_notin x l : StronglySorted Z.lt (x :: l) -> ~ In x l.
Proof. intros S I. inversion S as [|? ? _ F]. subst. rewrite Forall_forall in F. specialize (F x I). lia. Qed.
Lemma phi_fold l : Forall (fun x => prime (fst x) /\ 1 <= snd x) l -> StronglySorted Z.lt (map fst l) -> forall acc,
  fold_left (fun result f => let '(p, e) := f in if 1 <? e then result * p ^ (e - 1) * (p - 1) else result * (p - 1)) l acc = acc * totient (ppower_product l).
Proof.
  intros F. induction F as [|(p, e) l (Hp & He) F IH]; intros S acc; cbn [fold_left].
  { rewrite ppower_nil, totient_1. ring. }
  cbn [map fst] in S. assert (NI := ssorted_notin _ _ S). inversion S as [|? ? S' _]; subst. cbn [fst snd] in *. rewrite (IH S'), ppower_cons.
  rewrite (totient_pfactor_mul Hp); [|lia|now apply ppower_pos|now apply not_divides_product].
  destruct (1 <? e) eqn:C; [ring|]. replace (e - 1) with 0 by lia. rewrite Z.pow_0_r. ring.
Qed.
Lemma phi_of_factors_spec l : Forall (fun x => prime (fst x) /\ 1 <= snd x) l -> StronglySorted Z.lt (map fst l) -> phi_of_factors l = totient (ppower_product l).
Proof. intros F S. unfold phi_of_factors. rewrite phi_fold by auto. ring. Qed.
Lemma c53_phi : forall n_bits n, 1 <= n -> is_prime_exact n_bits n -> exists fuel0, forall fuel, (fuel0 <= fuel)%nat -> phi n_bits fuel n = Ok (totient n).
Proof.
  intros nb n N EX. destruct (Z_lt_le_dec n 3) as [L|L].
  - exists 0%nat. intros fuel _. unfold phi. replace (n <? 3) with true by lia. f_equal. assert (C : n = 1 \/ n = 2) by lia. destruct C as [->| ->]; reflexivity.
  - destruct (c52_exact nb n ltac:(lia) EX) as (f0 & l & E & P & S & F). exists f0. intros fuel H. unfold phi. replace (n <? 3) with false by lia.
    rewrite E by exact H. cbn [bind]. f_equal. rewrite phi_of_factors_spec, P; auto.
Qed.
Lemma c53_small : forall n_bits n, 1 <= n < 1231 * 1231 -> exists fuel0, forall fuel, (fuel0 <= fuel)%nat -> phi n_bits fuel n = Ok (totient n).
Proof. intros nb n N. apply c53_phi; [lia|]. intros q D Q _. apply Z.divide_pos_le in D; lia. Qed.
Lemma totient_composite n d : 1 < d < n -> (d | n) -> totient n < n - 1.
Proof.
  intros D DV. unfold totient.
  assert (I : incl (filter (fun k => Z.gcd (Z.of_nat k) n =? 1) (seq 1 (Z.to_nat n))) (remove Nat.eq_dec (Z.to_nat d) (seq 1 (Z.to_nat (n - 1))))).
  { intros k K. apply filter_In in K as (K & G). apply in_seq in K. apply Z.eqb_eq in G.
    assert (Z.of_nat k <> n) by (intros X; rewrite X, Z.gcd_diag_nonneg in G; lia). assert (Z.of_nat k <> d).
    { intros X. rewrite X in G. apply Z.divide_gcd_iff in DV; lia. }
    apply in_in_remove; [lia|]. apply in_seq. lia. }
  apply NoDup_incl_length in I; [|apply NoDup_filter, seq_NoDup].
  assert (X := remove_length_lt Nat.eq_dec (seq 1 (Z.to_nat (n - 1))) (Z.to_nat d) ltac:(apply in_seq; lia)). rewrite seq_length in X. lia.
Qed.
Lemma c53_refuted : exists n, 1 <= n /\ forall n_bits, 250 <= n_bits n < 300 ->
  exists fuel0 v, (forall fuel, (fuel0 <= fuel)%nat -> phi n_bits fuel n = Ok v) /\ v <> totient n.
Proof.
  destruct c52_prime_factors_refuted as (n & N & NP & H). exists n. split; [lia|]. intros nb B. destruct (H nb B) as (f0 & E). exists f0, (n - 1).
  assert (N3 : 3 <= n). { destruct (Z.eq_dec n 2) as [->|]; [destruct (NP prime_2)|lia]. }
  split.
  - intros fuel L. unfold phi. replace (n <? 3) with false by lia. rewrite E by exact L. cbn [bind]. unfold phi_of_factors. cbn [fold_left].
    replace (1 <? 1) with false by reflexivity. now rewrite Z.mul_1_l.
  - destruct (small_divisor n ltac:(lia) NP) as (q & Q & D & QQ). assert (Q2 := prime_ge_2 q Q). assert (X := totient_composite n q ltac:(nia) D). lia.
Qed.

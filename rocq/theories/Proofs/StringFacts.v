(** String forms (C101) and the fixed-size PRFs (C102) *)
From Coq Require Import ZArith List Bool Lia.
From Verif Require Import Proofs.Tac Model.Py Model.Ecc Model.Compare Model.GaloisField Model.Hmac Model.Strings Spec.EncodingSpec Spec.StringSpec Spec.HmacSpec Proofs.HmacFacts.
Import ListNotations.
Local Open Scope Z_scope.

Lemma be_snoc base l d : be_value base (l ++ [d]) = be_value base l * base + d.
Proof.
  induction l as [|x l IH]; [cbn; lia|]. cbn [app be_value]. rewrite IH, app_length. cbn [length]. replace (Z.of_nat (length l + 1)) with (Z.of_nat (length l) + 1) by lia.
  rewrite Z.pow_add_r by lia. ring.
Qed.
Lemma digits_ok f : forall n, 0 <= n -> n < 2 ^ Z.of_nat f -> (0 < f)%nat -> numeral n (dec_digits f n).
Proof.
  induction f as [|f IH]; intros n N B F; [lia|]. cbn [dec_digits]. destruct (Z.ltb_spec n 10) as [L|L].
  - split; [constructor; [unfold digit; lia|constructor]|]. split; [discriminate|]. split; [cbn [map be_value length]; change (10 ^ Z.of_nat 0) with 1; lia|]. cbn [hd]. destruct (Z.eq_dec n 0) as [->|]; [now left|right; lia].
  - assert (Q : 1 <= n / 10) by (apply Z.div_le_lower_bound; lia). assert (Q2 : n / 10 < 2 ^ Z.of_nat f).
    { rewrite Nat2Z.inj_succ, Z.pow_succ_r in B by lia. apply Z.div_lt_upper_bound; lia. }
    assert (F' : (0 < f)%nat) by (destruct f; [cbn in Q2; lia|lia]).
    destruct (IH (n / 10) ltac:(lia) Q2 F') as (D & NE & V & H). pose proof (Z.mod_pos_bound n 10 ltac:(lia)). split; [|split; [|split]].
    + apply Forall_app. split; [exact D|]. constructor; [unfold digit; lia|constructor].
    + destruct (dec_digits f (n / 10)); discriminate.
    + rewrite map_app. cbn [map]. rewrite be_snoc, V. pose proof (Z.div_mod n 10 ltac:(lia)). lia.
    + right. destruct (dec_digits f (n / 10)) as [|c t]; [contradiction|]. cbn [hd app]. destruct H as [E|H]; [|exact H]. injection E as -> ->. cbn in V. lia.
Qed.
Lemma c101_decimal : forall z, decimal z (dec z).
Proof.
  intros z. assert (N : numeral (Z.abs z) (dec_digits (S (Z.to_nat (Z.log2 (Z.abs z)))) (Z.abs z))).
  { apply digits_ok; [lia| |lia]. destruct (Z.eq_dec z 0) as [->|NZ]; [reflexivity|]. pose proof (Z.log2_nonneg (Z.abs z)).
    replace (Z.of_nat (S (Z.to_nat (Z.log2 (Z.abs z))))) with (Z.succ (Z.log2 (Z.abs z))) by lia. apply Z.log2_spec. lia. }
  unfold dec. destruct (Z.ltb_spec z 0) as [L|L].
  - right. split; [exact L|]. eexists. split; [reflexivity|]. replace (- z) with (Z.abs z) by lia. exact N.
  - left. split; [exact L|]. rewrite <- (Z.abs_eq z L) at 1. exact N.
Qed.
Lemma decimal_value z s : decimal z s -> z = match s with 45 :: t => - be_value 10 (map (fun c => c - 48) t) | _ => be_value 10 (map (fun c => c - 48) s) end.
Proof.
  intros [(P & D & NE & V & _)|(P & t & -> & D & NE & V & _)]; [|lia]. destruct s as [|c t]; [contradiction|]. inversion D as [|? ? C D']; subst. unfold digit in C.
  destruct (Z.eq_dec c 45) as [->|N]; [lia|]. destruct c as [|c|c]; try lia. do 6 (destruct c; try reflexivity; try lia).
Qed.
Lemma dec_inj x y : dec x = dec y -> x = y.
Proof. intros E. rewrite (decimal_value _ _ (c101_decimal x)), (decimal_value _ _ (c101_decimal y)), E. reflexivity. Qed.
Lemma dec_chars z : Forall (fun c => c <> 44 /\ c <> 41) (dec z).
Proof.
  destruct (c101_decimal z) as [(_ & D & _)|(_ & t & -> & D & _)]; [|constructor; [lia|]]; (eapply Forall_impl; [|exact D]; intros c C; unfold digit in C; lia).
Qed.
Lemma dec_ne z : dec z <> [].
Proof. destruct (c101_decimal z) as [(_ & _ & N & _)|(_ & t & -> & _)]; [exact N|discriminate]. Qed.
Lemma split_at c (u v u' v' : list Z) : Forall (fun x => x <> c) u -> Forall (fun x => x <> c) u' -> u ++ c :: v = u' ++ c :: v' -> u = u' /\ v = v'.
Proof.
  revert u'. induction u as [|x u IH]; intros u' F F' E; destruct u' as [|x' u']; cbn [app] in E.
  - injection E as ->. auto.
  - injection E as E1 E2. inversion F'; subst. contradiction.
  - injection E as E1 E2. inversion F; subst. contradiction.
  - injection E as -> E. inversion F; inversion F'; subst. destruct (IH u') as (-> & ->); auto.
Qed.
Lemma pair_inj x y x' y' : pair_str x y = pair_str x' y' -> x = x' /\ y = y'.
Proof.
  unfold pair_str. cbn [app]. intros E. injection E as E.
  assert (A : forall z, Forall (fun c => c <> 44) (dec z)) by (intros z; eapply Forall_impl; [|exact (dec_chars z)]; intros c C; apply C).
  assert (B : forall z, Forall (fun c => c <> 41) (dec z)) by (intros z; eapply Forall_impl; [|exact (dec_chars z)]; intros c C; apply C).
  apply split_at in E as (E1 & E2); auto. apply split_at in E2 as (E2 & _); auto. split; now apply dec_inj.
Qed.
Lemma c101_point : forall P Q, point_str P = point_str Q <-> P = Q.
Proof.
  intros P Q. split; [|now intros ->]. destruct P as [|x y], Q as [|x' y']; cbn [point_str]; try reflexivity; try discriminate. intros E. apply pair_inj in E as (-> & ->). reflexivity.
Qed.
Lemma c101_element : forall x y, el_str x = el_str y <-> el_v x = el_v y.
Proof. intros x y. unfold el_str. split; [apply dec_inj|now intros ->]. Qed.
Lemma c101_element_refuted : exists x y, el_new 5 2 = Ok x /\ el_new 7 2 = Ok y /\ x <> y /\ el_str x = el_str y.
Proof. exists (Element 5 2), (Element 7 2). repeat split; try reflexivity. discriminate. Qed.
Lemma c101_edwards_refuted : forall p a d P, 2 < p -> te_str p a d P = Raise AssertionError.
Proof.
  intros p a d P H. unfold te_str, te_identity, te_point, te_on_curve. replace (a * (0 * 0) - 1 + -1 * (1 - d * (0 * 0) * -1)) with (-2) by ring.
  replace (-2 mod p =? 0) with false; [reflexivity|]. symmetry. apply Z.eqb_neq. rewrite <- (Z.mod_unique (-2) p (-1) (p - 2)); lia.
Qed.
Lemma c101_montgomery : forall p a P, mg_str p a P = match mg_identity p a with Ok _ => Ok (point_str (if (fst P =? 0) && (snd P =? -1) then Inf else Aff (fst P) (snd P))) | Raise e => Raise e end.
Proof.
  intros p a P. unfold mg_str. destruct (mg_identity p a) as [i|e] eqn:E; [|reflexivity]. unfold mg_identity, mg_point in E. destruct (mg_on_curve _ _ _ _); cbn [py_assert bind] in E; [|discriminate].
  injection E as <-. cbn [bind]. unfold pair_eqb. cbn [fst snd]. destruct ((fst P =? 0) && (snd P =? -1)); reflexivity.
Qed.
Lemma c102_sizes : forall hm key A B, (forall k m, length (hm k m) = 20%nat) -> exists R,
  PRF_768 hm key A B = Ok R /\ len R = 96 /\
  PRF_512 hm key A B = Ok (firstn 64 R) /\ PRF_384 hm key A B = Ok (firstn 48 R) /\ PRF_256 hm key A B = Ok (firstn 32 R) /\
  PRF_192 hm key A B = Ok (firstn 24 R) /\ PRF_128 hm key A B = Ok (firstn 16 R).
Proof.
  intros hm key A B H. assert (E : forall n, 0 <= n <= 96 -> PRF hm key A B (8 * n) = Ok (ieee_prf hm key A B 256 (Z.to_nat n))) by (intros; apply c30_exact; auto; lia).
  exists (ieee_prf hm key A B 256 96). assert (E96 := E 96 ltac:(lia)).
  assert (P : forall n, 0 <= n <= 96 -> PRF hm key A B (8 * n) = Ok (firstn (Z.to_nat n) (ieee_prf hm key A B 256 96))).
  { intros n N. rewrite (E n N). f_equal. exact (c30_prefix hm key A B n 96 _ _ H ltac:(lia) (E n N) E96). }
  split; [exact E96|]. split; [exact (c30_length hm key A B 96 _ H ltac:(lia) E96)|].
  split; [exact (P 64 ltac:(lia))|]. split; [exact (P 48 ltac:(lia))|]. split; [exact (P 32 ltac:(lia))|]. split; [exact (P 24 ltac:(lia))|exact (P 16 ltac:(lia))].
Qed.
Lemma c101_form : point_str Inf = [73; 68; 69; 78; 84; 73; 84; 89] /\
  (forall x y, exists sx sy, decimal x sx /\ decimal y sy /\ point_str (Aff x y) = [40] ++ sx ++ [44] ++ sy ++ [41]) /\
  (forall x, decimal (el_v x) (el_str x)).
Proof.
  split; [reflexivity|]. split; [|intros x; apply c101_decimal]. intros x y. exists (dec x), (dec y). split; [apply c101_decimal|]. split; [apply c101_decimal|reflexivity].
Qed.
Lemma c104_points : (forall P, point_to_octetstring P = Raise NameError) /\ forall P s, point_from_octetstring P s = Raise TypeError.
Proof. split; reflexivity. Qed.
Lemma c104_michael : forall k s, michael_update k s = Raise TypeError /\ michael_digest k = Raise TypeError /\ michael_final k s = Raise TypeError.
Proof. intros; repeat split. Qed.
Lemma c104_permutation : (forall c, permutation_map_orbits c = Raise TypeError) /\
  (forall t, permutation_start_and_length (OnClass t) = Raise TypeError) /\ permutation_start_and_length OnObject = Raise NameError.
Proof. repeat split. Qed.

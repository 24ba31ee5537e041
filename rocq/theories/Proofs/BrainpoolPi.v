(** brainpool_seeds cuts its result from the binary expansion of pi. *)
From Coq Require Import ZArith List Bool Reals Lia Lra Znumtheory Zpow_facts Uint63.
From Verif Require Import Model.Py Model.Pi Model.BrainpoolSeeds Spec.BrainpoolSpec Proofs.PiDigits Proofs.PiValue Proofs.PiFacts.
Import ListNotations.
Local Open Scope Z_scope.

(** ** hexadecimal strings *)
Fixpoint hexs (L : nat) (n : Z) : list Z := match L with O => [] | S L => (hexs L (n / 16) ++ [hex_digit (n mod 16)])%list end.
Lemma hexs_length L : forall n, length (hexs L n) = L.
Proof. induction L as [|L IH]; intros n; cbn [hexs]; [reflexivity|]. rewrite app_length, IH. cbn. lia. Qed.
Lemma hexs_app a b : forall n, hexs (b + a) n = (hexs a (n / 16 ^ Z.of_nat b) ++ hexs b n)%list.
Proof.
  induction b as [|b IH]; intros n; cbn [hexs Nat.add].
  - change (16 ^ Z.of_nat 0) with 1. now rewrite Z.div_1_r, app_nil_r.
  - rewrite IH, app_assoc. do 2 f_equal. rewrite Z.div_div by lia. f_equal. f_equal. rewrite Nat2Z.inj_succ, Z.pow_succ_r by lia. reflexivity.
Qed.
Lemma hex_loop_ok L : forall fuel n acc, (S L <= fuel)%nat -> 16 ^ Z.of_nat L <= n < 16 ^ Z.of_nat (S L) -> hex_loop fuel n acc = (hexs (S L) n ++ acc)%list.
Proof.
  induction L as [|L IH]; intros fuel n acc F R; (destruct fuel as [|fuel]; [lia|]); cbn [hex_loop].
  - change (16 ^ Z.of_nat 0) with 1 in R. change (16 ^ Z.of_nat 1) with 16 in R. replace (n =? 0) with false by lia. cbn [hexs app].
    rewrite (Z.div_small n 16) by lia. destruct fuel; reflexivity.
  - assert (R' : 16 ^ Z.of_nat L <= n / 16 < 16 ^ Z.of_nat (S L)).
    { rewrite !Nat2Z.inj_succ, !Z.pow_succ_r in * by lia. split; [apply Z.div_le_lower_bound|apply Z.div_lt_upper_bound]; lia. }
    assert (P : 0 < 16 ^ Z.of_nat (S L)) by (apply Z.pow_pos_nonneg; lia).
    replace (n =? 0) with false by lia. rewrite IH by (assumption || lia). cbn [hexs]. now rewrite <- !app_assoc.
Qed.
Lemma hex_value_digit d : 0 <= d < 16 -> hex_value (hex_digit d) = Some d.
Proof.
  intros H. unfold hex_digit, hex_value. destruct (Z.ltb_spec d 10).
  - replace ((48 <=? 48 + d) && (48 + d <=? 57)) with true by lia. f_equal. lia.
  - replace ((48 <=? 87 + d) && (87 + d <=? 57)) with false by lia. replace ((97 <=? 87 + d) && (87 + d <=? 102)) with true by lia. f_equal. lia.
Qed.
Lemma int16_app s t : forall acc, int16_loop (s ++ t) acc = bind (int16_loop s acc) (int16_loop t).
Proof. induction s as [|c s IH]; intros acc; cbn [app int16_loop]; [reflexivity|]. destruct (hex_value c); [apply IH|reflexivity]. Qed.
Lemma int16_ok L : forall n acc, int16_loop (hexs L n) acc = Ok (acc * 16 ^ Z.of_nat L + n mod 16 ^ Z.of_nat L).
Proof.
  induction L as [|L IH]; intros n acc; cbn [hexs].
  - change (16 ^ Z.of_nat 0) with 1. cbn [int16_loop]. rewrite Z.mod_1_r. f_equal. lia.
  - rewrite int16_app, IH. cbn [bind int16_loop]. rewrite hex_value_digit by (apply Z.mod_pos_bound; lia). f_equal.
    rewrite Nat2Z.inj_succ, Z.pow_succ_r by lia. rewrite (Z.rem_mul_r n 16 (16 ^ Z.of_nat L)) by (try apply Z.pow_pos_nonneg; lia). ring.
Qed.
Lemma py_int16_ok L n : (0 < L)%nat -> py_int16 (hexs L n) = Ok (n mod 16 ^ Z.of_nat L).
Proof.
  intros H. unfold py_int16. destruct (hexs L n) as [|c l] eqn:E; [pose proof (hexs_length L n); rewrite E in *; cbn in *; lia|].
  rewrite <- E, int16_ok. f_equal.
Qed.
Lemma slice_mid (a b c : list Z) i j : i = Z.of_nat (length a) -> j = i + Z.of_nat (length b) -> py_slice (a ++ b ++ c) i j = b.
Proof.
  intros Hi Hj. unfold py_slice, py_index, len. rewrite !app_length. replace (i <? 0) with false by lia. replace (j <? 0) with false by lia.
  unfold slice. replace (Z.to_nat (Z.max 0 _)) with (length a) by lia. rewrite skipn_app, Nat.sub_diag, skipn_all. cbn [app skipn].
  replace (Z.to_nat _) with (length b) by lia. rewrite firstn_app, Nat.sub_diag, firstn_all. cbn [firstn]. apply app_nil_r.
Qed.

(** ** the text *)
Definition N1000 : Z := trunc 1000.
Definition D1000 : list Z := firstn 1000 digits.
Lemma ascii_ok : pi_ascii = 51 :: 46 :: D1000.
Proof. vm_cast_no_check (eq_refl pi_ascii). Qed.
Lemma D_ok : Forall is_digit D1000 /\ length D1000 = 1000%nat.
Proof. apply (firstn_digits 1000). unfold max_digits. lia. Qed.
Lemma num_digits_ok : num_digits = 1000.
Proof.
  unfold num_digits. pose proof ascii_ok as A. pose proof (proj2 D_ok) as L. rewrite (len_general _ _ _ _ _ A L). reflexivity.
Qed.
Lemma last_digit : (Z.odd (dv D1000 0) && negb (dv D1000 0 mod 5 =? 0)) = true.
Proof. vm_cast_no_check (eq_refl true). Qed.
Lemma dv_len l n : Z.of_nat (length l) = n -> dv l 3 = 3 * 10 ^ n + dv l 0.
Proof. intros <-. apply dv_acc. Qed.
Lemma N_digits : N1000 = dv D1000 3.
Proof. unfold N1000, trunc, D1000. exact eq_refl. Qed.
Lemma D_len : Z.of_nat (length D1000) = 1000.
Proof. pose proof (proj2 D_ok) as L. rewrite L. reflexivity. Qed.
Lemma N1000_eq : N1000 = 3 * 10 ^ 1000 + dv D1000 0.
Proof. rewrite N_digits. exact (dv_len D1000 1000 D_len). Qed.
Lemma N_bounds : (IZR N1000 <= PI * IZR (10 ^ 1000) < IZR N1000 + 1)%R.
Proof. exact (trunc_ok 1000 ltac:(unfold max_digits; lia)). Qed.
Opaque D1000 N1000.
Lemma prime_5 : prime 5.
Proof.
  apply prime_intro; [lia|]. intros n H. apply Zgcd_1_rel_prime. assert (C : n = 1 \/ n = 2 \/ n = 3 \/ n = 4) by lia. destruct C as [->|[->|[->| ->]]]; reflexivity.
Qed.
Lemma gcd_10 n k : Z.odd n = true -> n mod 5 <> 0 -> 0 <= k -> Z.gcd n (10 ^ k) = 1.
Proof.
  intros O F K. apply Zgcd_1_rel_prime. apply rel_prime_Zpower_r; [exact K|]. change 10 with (2 * 5). apply rel_prime_mult; apply rel_prime_sym, prime_rel_prime.
  - exact prime_2.
  - intros (q & E). rewrite E, Z.odd_mul, andb_false_r in O. discriminate.
  - exact prime_5.
  - intros D. apply F. now apply Z.mod_divide.
Qed.
Lemma frac_10 n k : Z.odd n = true -> n mod 5 <> 0 -> 0 <= k -> fraction n (10 ^ k) = Ok (n, 10 ^ k).
Proof.
  intros O F K. unfold fraction. assert (0 < 10 ^ k) by (apply Z.pow_pos_nonneg; lia). replace (10 ^ k =? 0) with false by lia.
  rewrite gcd_10 by assumption. rewrite Z.sgn_pos by assumption. now rewrite !Z.div_1_r.
Qed.
Lemma pi_fraction_ok : pi_fraction = Ok (N1000, 10 ^ 1000).
Proof.
  unfold pi_fraction. rewrite num_digits_ok. pose proof last_digit as L. pose proof D_ok as (F & LD). pose proof N1000_eq as NE. pose proof ascii_ok as A.
  apply andb_prop in L as (L1 & L2). apply negb_true_iff, Z.eqb_neq in L2.
  replace (py_slice pi_ascii 2 (len pi_ascii)) with D1000.
  2:{ symmetry. rewrite A. change (51 :: 46 :: D1000) with ([51; 46] ++ D1000)%list. rewrite <- (app_nil_r D1000) at 1. apply slice_mid; [reflexivity|]. unfold len. rewrite app_length. cbn [length]. lia. }
  assert (I : py_int D1000 = Ok (dv D1000 0)).
  { unfold py_int. rewrite <- (int_aux_ok _ F). destruct D1000; [discriminate LD|reflexivity]. }
  rewrite I. cbn [bind]. clear I A. generalize dependent (dv D1000 0). intros x L1 L2 NE. rewrite frac_10 by (assumption || lia). cbn [bind int_plus_fraction].
  rewrite NE. apply frac_10; [| |lia].
  - rewrite Z.odd_add, Z.odd_mul. rewrite L1. replace (Z.odd (10 ^ 1000)) with false by (rewrite Z.odd_pow by lia; reflexivity). reflexivity.
  - change 1000 with (1 + 999). rewrite Z.pow_add_r by lia. change (10 ^ 1) with 10. generalize (10 ^ 999). intros t. replace (3 * (10 * t) + x) with (x + 6 * t * 5) by ring. now rewrite Z.mod_add by lia.
Qed.

(** ** binary digits of pi *)
Definition top : Z := 3317.
Definition U (m : Z) : Z := N1000 * 2 ^ m / 10 ^ 1000.
Definition U_top : Z := 0x6487ed5110b4611a62633145c06e0e68948127044533e63a0105df531d89cd9128a5043cc71a026ef7ca8cd9e69d218d98158536f92f8a1ba7f09ab6b6a8e122f242dabb312f3f637a262174d31bf6b585ffae5b7a035bf6f71c35fdad44cfd2d74f9208be258ff324943328f6722d9ee1003e5c50b1df82cc6d241b0e2ae9cd348b1fd47e9267afc1b2ae91ee51d6cb0e3179ab1042a95dcf6a9483b84b4b36b3861aa7255e4c0278ba3604650c10be19482f23171b671df1cf3b960c074301cd93c1d17603d147dae2aef837a62964ef15e5fb4aac0b8c1ccaa4be754ab5728ae9130c4c7d02880ab9472d45556216d6998b8682283d19d42a90d5ef8e5d32767dc2822c6df785457538abae83063ed9cb87c2d370f263d5fad7466d8499eb8f464a702512b0cee771e9130d697735f897fd036cc504326c3b01399f643532290f958c0bbd90065df08babbd30aeb63b84c4605d6ca371047127d03a72d598a1edadfe707e884725c16890549084008d391e0953c3f36bc438cd085edd2d934ce1938c357a711e0d4a341a5b0a85ed12c1f4e5156a26746ddde16d826f47.
(** the fraction in words of nine decimals, least significant first, padded with eight zeros *)
Definition pi_words : list int := [900000000; 216420198; 611195909; 1927876; 226806613; 780532171; 957781857; 787593751; 863882353; 731159562; 428755468; 598253490; 669147303; 420617177; 533208381; 752886587; 3137838; 188171010; 35261931; 253344685; 642522308; 346908302; 24459455; 96318595; 731732816; 49951059; 998372978; 211349999; 960518707; 774771309; 159813629; 864034418; 129021960; 19956112; 258923542; 792279689; 585371050; 430146549; 901224953; 721468440; 173637178; 757789609; 785771342; 263560827; 568127145; 405132000; 818467669; 752384674; 176293176; 770539217; 860943702; 190702179; 395224737; 21394946; 656643086; 673362440; 949129833; 938183011; 724891227; 351885752; 962749567; 74462379; 105118548; 932611793; 186117381; 591953092; 270365759; 609433057; 951941511; 521384146; 548820466; 11330530; 892590360; 715364367; 829254091; 520920962; 588174881; 6606315; 273724587; 260249141; 213393607; 454326648; 460348610; 648566923; 201909145; 783165271; 648233786; 446128475; 975665933; 964428810; 954930381; 644622948; 521105559; 102701938; 117450284; 408128481; 231725359; 609550582; 647093844; 513282306; 982148086; 342117067; 628034825; 286208998; 307816406; 974944592; 375105820; 197169399; 279502884; 462643383; 589793238; 141592653]%uint63.
Definition Wi : int := 1000000000%uint63.
Notation W := 1000000000.
Fixpoint wval (l : list int) : Z := match l with [] => 0 | x :: l => to_Z x + W * wval l end.
Fixpoint mulw (l : list int) (s c : int) : list int * int :=
  match l with
  | [] => ([], c)
  | x :: l => let t := (x * s + c)%uint63 in let '(r, d) := mulw l s (t / Wi)%uint63 in ((t mod Wi)%uint63 :: r, d)
  end.
Definition wgood (x : int) : Prop := to_Z x < W.
Lemma mulw_ok l : Forall wgood l -> forall s c, to_Z s <= 2 ^ 30 -> to_Z c < 2 ^ 30 -> let '(r, d) := mulw l s c in
  wval r + W ^ Z.of_nat (length l) * to_Z d = wval l * to_Z s + to_Z c /\ Forall wgood r /\ length r = length l.
Proof.
  induction 1 as [|x l G F IH]; intros s c S C; cbn [mulw].
  - cbn [wval length]. change (W ^ Z.of_nat 0) with 1. split; [ring|]. split; [constructor|reflexivity].
  - pose proof (to_Z_bounded x) as (X0 & _). pose proof (to_Z_bounded s) as (S0 & _). pose proof (to_Z_bounded c) as (C0 & _). unfold wgood in G.
    assert (P : 0 <= to_Z x * to_Z s <= 999999999 * 2 ^ 30) by nia.
    assert (T : to_Z (x * s + c)%uint63 = to_Z x * to_Z s + to_Z c).
    { rewrite add_spec, mul_spec. rewrite (Z.mod_small (to_Z x * to_Z s)) by (change wB with (2 ^ 63); lia). apply Z.mod_small. change wB with (2 ^ 63). lia. }
    set (t := (x * s + c)%uint63) in *.
    assert (TD : to_Z (t / Wi)%uint63 = to_Z t / W) by (rewrite div_spec; reflexivity). assert (TM : to_Z (t mod Wi)%uint63 = to_Z t mod W) by (rewrite mod_spec; reflexivity).
    assert (DB : to_Z (t / Wi)%uint63 < 2 ^ 30) by (rewrite TD; apply Z.div_lt_upper_bound; lia).
    specialize (IH s (t / Wi)%uint63 S DB). destruct (mulw l s (t / Wi)%uint63) as [r d]. destruct IH as (E & R & L).
    cbn [wval length]. split; [|split; [constructor; [unfold wgood; rewrite TM; apply Z.mod_pos_bound; lia|exact R]|now rewrite L]].
    rewrite TM. rewrite TD in E. rewrite Nat2Z.inj_succ, Z.pow_succ_r by lia. pose proof (Z.div_mod (to_Z t) W ltac:(lia)) as D. generalize dependent (to_Z t / W). intros q. generalize dependent (to_Z t mod W). intros m. intros. nia.
Qed.
Lemma wval_range l : Forall wgood l -> 0 <= wval l < W ^ Z.of_nat (length l).
Proof.
  induction 1 as [|x l G F IH]; cbn [wval length]; [change (W ^ Z.of_nat 0) with 1; lia|]. rewrite Nat2Z.inj_succ, Z.pow_succ_r by lia. unfold wgood in G. pose proof (to_Z_bounded x). lia.
Qed.
Fixpoint rounds (n : nat) (l : list int) (I : Z) : list int * Z :=
  match n with O => (l, I) | S n => let '(r, d) := mulw l 1073741824%uint63 0%uint63 in rounds n r (I * 2 ^ 30 + to_Z d) end.
Lemma rounds_ok n : forall l I, Forall wgood l -> let '(r, J) := rounds n l I in
  (I * W ^ Z.of_nat (length l) + wval l) * 2 ^ (30 * Z.of_nat n) = J * W ^ Z.of_nat (length l) + wval r /\ Forall wgood r /\ length r = length l.
Proof.
  induction n as [|n IH]; intros l I F; cbn [rounds].
  - change (2 ^ (30 * Z.of_nat 0)) with 1. split; [ring|]. now split.
  - pose proof (mulw_ok l F 1073741824%uint63 0%uint63) as M. destruct (mulw l 1073741824%uint63 0%uint63) as [r d]. specialize (M ltac:(vm_compute; discriminate) ltac:(reflexivity)). destruct M as (E & G & L).
    specialize (IH r (I * 2 ^ 30 + to_Z d) G). destruct (rounds n r (I * 2 ^ 30 + to_Z d)) as [r' J]. destruct IH as (E' & G' & L'). rewrite L in *. split; [|now split].
    rewrite <- E'. replace (30 * Z.of_nat (S n)) with (30 + 30 * Z.of_nat n) by lia. rewrite Z.pow_add_r by lia. rewrite Z.mul_assoc. f_equal.
    change (to_Z 1073741824%uint63) with (2 ^ 30) in E. change (to_Z 0%uint63) with 0 in E. rewrite Z.add_0_r in E. generalize dependent (2 ^ 30). intros. nia.
Qed.
Definition words_check (l : list int) (x : Z) : bool := forallb (fun x => (x <? Wi)%uint63) l && Nat.eqb (length l) 112 && (wval l =? x * 10 ^ 8).
Lemma words_sound l x : words_check l x = true -> Forall wgood l /\ length l = 112%nat /\ wval l = x * 10 ^ 8.
Proof.
  unfold words_check. rewrite !andb_true_iff. intros ((K1 & K2) & K3). apply Nat.eqb_eq in K2. apply Z.eqb_eq in K3. split; [|now split].
  apply Forall_forall. intros y I. apply (proj1 (forallb_forall _ _) K1) in I. apply ltb_spec in I. exact I.
Qed.
Lemma words_checked : words_check pi_words (dv D1000 0) = true.
Proof. vm_cast_no_check (eq_refl true). Qed.
Definition first_round : list int * int := mulw pi_words 131072%uint63 0%uint63.
Definition last_round : list int * Z := let '(r, d) := first_round in rounds 110 r (3 * 2 ^ 17 + to_Z d).
Definition ten_pow : Z := 10 ^ 1000.
Definition round_check (p : list int * Z) (u x t : Z) : bool := let '(r, J) := p in (J =? u) && (wval r + x * 10 ^ 8 <=? t * 10 ^ 8).
Lemma rounds_checked : round_check last_round U_top (2 ^ 3317) ten_pow = true.
Proof. vm_cast_no_check (eq_refl true). Qed.
Lemma last_sound : N1000 * 2 ^ 3317 * 10 ^ 8 = snd last_round * (ten_pow * 10 ^ 8) + wval (fst last_round) /\ 0 <= wval (fst last_round) < ten_pow * 10 ^ 8.
Proof.
  destruct (words_sound _ _ words_checked) as (F & K2 & K3).
  rewrite N1000_eq. unfold last_round, first_round. generalize dependent pi_words. intros l F L V.
  pose proof (mulw_ok l F 131072%uint63 0%uint63) as M. destruct (mulw l 131072%uint63 0%uint63) as [r0 d]. specialize (M ltac:(vm_compute; discriminate) ltac:(reflexivity)). destruct M as (E & G & L0).
  pose proof (rounds_ok 110 r0 (3 * 2 ^ 17 + to_Z d) G) as R. destruct (rounds 110 r0 (3 * 2 ^ 17 + to_Z d)) as [r J]. cbn [fst snd]. destruct R as (E2 & G2 & L2). rewrite L0, L in *.
  assert (TP : W ^ Z.of_nat 112 = ten_pow * 10 ^ 8). { unfold ten_pow. change W with (10 ^ 9). rewrite <- Z.pow_mul_r, <- Z.pow_add_r by lia. reflexivity. }
  pose proof (wval_range r G2) as B. rewrite L2, TP in B. rewrite TP in *. split; [|exact B]. rewrite <- E2. rewrite V in E.
  change (to_Z 131072%uint63) with (2 ^ 17) in E. change (to_Z 0%uint63) with 0 in E. change (30 * Z.of_nat 110) with 3300. change 3317 with (17 + 3300). rewrite Z.pow_add_r by lia.
  fold ten_pow. generalize dependent ten_pow. intros t. generalize dependent (dv D1000 0). intros x. generalize (2 ^ 3300). intros y. clear. intros _ E _ _ _.
  replace ((3 * t + x) * (2 ^ 17 * y) * 10 ^ 8) with ((3 * 2 ^ 17 * (t * 10 ^ 8) + x * 10 ^ 8 * 2 ^ 17) * y) by ring. f_equal. lia.
Qed.
Lemma top_generic n y t u w : n * y * 10 ^ 8 = u * (t * 10 ^ 8) + w -> 0 <= w < t * 10 ^ 8 -> w + y * 10 ^ 8 <= t * 10 ^ 8 -> n * y / t = u /\ (n + 1) * y <= (u + 1) * t.
Proof.
  intros S B K. split; [|lia]. rewrite <- (Z.div_mul_cancel_r (n * y) t (10 ^ 8)) by lia. rewrite S. symmetry. apply (Z.div_unique _ _ u w); [left; exact B|lia].
Qed.
Lemma round_generic (p : list int * Z) u x t : round_check p u x t = true -> snd p = u /\ wval (fst p) + x * 10 ^ 8 <= t * 10 ^ 8.
Proof. destruct p as [r J]. intros K. apply andb_prop in K as [K1 K2]. apply Z.eqb_eq in K1. apply Z.leb_le in K2. now split. Qed.
Lemma facts_generic n y t u (p : list int * Z) : n * y * 10 ^ 8 = snd p * (t * 10 ^ 8) + wval (fst p) /\ 0 <= wval (fst p) < t * 10 ^ 8 ->
  round_check p u y t = true -> n * y / t = u /\ (n + 1) * y <= (u + 1) * t.
Proof. intros (S & B) K. destruct (round_generic p u y t K) as (<- & K2). exact (top_generic _ _ _ _ _ S B K2). Qed.
Lemma top_facts : N1000 * 2 ^ 3317 / ten_pow = U_top /\ (N1000 + 1) * 2 ^ 3317 <= (U_top + 1) * ten_pow.
Proof. exact (facts_generic N1000 (2 ^ 3317) ten_pow U_top last_round last_sound rounds_checked). Qed.
Lemma U_top_eq : U top = U_top.
Proof. exact (proj1 top_facts). Qed.
Lemma top_ok : (N1000 + 1) * 2 ^ top <= (U top + 1) * 10 ^ 1000.
Proof. rewrite U_top_eq. exact (proj2 top_facts). Qed.
Lemma U_div m t : 0 <= m -> 0 <= t -> U (m + t) / 2 ^ t = U m.
Proof.
  intros M T. unfold U. assert (0 < 2 ^ t) by (apply Z.pow_pos_nonneg; lia). assert (0 < 10 ^ 1000) by (apply Z.pow_pos_nonneg; lia).
  rewrite Z.div_div by lia. rewrite Z.pow_add_r by lia. rewrite Z.mul_assoc, Z.div_mul_cancel_r by lia. reflexivity.
Qed.
Lemma U_div_eq s m t : s = m + t -> 0 <= m -> 0 <= t -> U s / 2 ^ t = U m.
Proof. intros ->. apply U_div. Qed.
Opaque U_top.
Lemma U_top_shift m : 0 <= m <= top -> Z.shiftr U_top (top - m) = U m.
Proof.
  intros M. rewrite Z.shiftr_div_pow2 by lia. pose proof (U_div m (top - m) ltac:(lia) ltac:(lia)) as D. replace (m + (top - m)) with top in D by ring. rewrite U_top_eq in D. exact D.
Qed.
Lemma U_floor m : 0 <= m <= top -> floor_of (PI * IZR (2 ^ m)) (U m).
Proof.
  intros M. pose proof N_bounds as (T1 & T2).
  assert (P10 : 0 < 10 ^ 1000) by (apply Z.pow_pos_nonneg; lia). assert (P2 : 0 < 2 ^ m) by (apply Z.pow_pos_nonneg; lia).
  assert (LO : U m * 10 ^ 1000 <= N1000 * 2 ^ m) by (unfold U; rewrite Z.mul_comm; apply Z.mul_div_le; exact P10).
  assert (HI : (N1000 + 1) * 2 ^ m <= (U m + 1) * 10 ^ 1000).
  { pose proof top_ok as T. assert (PT : 0 < 2 ^ (top - m)) by (apply Z.pow_pos_nonneg; lia).
    pose proof (U_div m (top - m) ltac:(lia) ltac:(lia)) as D. replace (m + (top - m)) with top in D by ring.
    assert (Q : U top + 1 <= (U m + 1) * 2 ^ (top - m)).
    { rewrite <- D. pose proof (Z.mul_succ_div_gt (U top) (2 ^ (top - m)) PT). clear - H. lia. }
    assert (S2 : 2 ^ top = 2 ^ m * 2 ^ (top - m)) by (rewrite <- Z.pow_add_r by lia; f_equal; lia). rewrite S2 in T.
    apply (Z.mul_le_mono_pos_r _ _ (2 ^ (top - m)) PT). generalize dependent (10 ^ 1000). intros t. intros. clear - T Q P10. nia. }
  generalize dependent (U m). intros u LO HI. generalize dependent (10 ^ 1000). intros t T1 T2 P10 LO HI. generalize dependent N1000. intros n. intros.
  apply IZR_le in LO, HI. apply IZR_lt in P10, P2. rewrite !mult_IZR in LO, HI. rewrite !plus_IZR in HI. unfold floor_of. clear - T1 T2 P10 P2 LO HI. split.
  - apply (Rmult_le_reg_r (IZR t)); [exact P10|]. nra.
  - apply (Rmult_lt_reg_r (IZR t)); [exact P10|]. nra.
Qed.
Lemma N_range : 3 * 10 ^ 1000 <= N1000 < 4 * 10 ^ 1000.
Proof.
  rewrite N1000_eq. pose proof D_ok as (F & L).
  assert (B : forall l, Forall is_digit l -> forall acc, 0 <= acc -> acc * 10 ^ Z.of_nat (length l) <= dv l acc < (acc + 1) * 10 ^ Z.of_nat (length l)).
  { clear. induction 1 as [|c l [H1 H2] F IH]; intros acc A; cbn [dv length]; [change (10 ^ Z.of_nat 0) with 1; lia|].
    rewrite Nat2Z.inj_succ, Z.pow_succ_r by lia. specialize (IH (10 * acc + (c - 48)) ltac:(lia)). assert (0 < 10 ^ Z.of_nat (length l)) by (apply Z.pow_pos_nonneg; lia). nia. }
  specialize (B _ F 0 ltac:(lia)). rewrite L in B. change (Z.of_nat 1000) with 1000 in B. clear - B. generalize dependent (10 ^ 1000). generalize (dv D1000 0). intros x t B. lia.
Qed.

(** ** the seeds *)
Lemma seed_loop_ok h w f : (0 < w)%nat -> forall js, (forall i, In i js -> py_slice h (Z.of_nat i * (Z.of_nat w) * 2) ((Z.of_nat i + 1) * Z.of_nat w * 2) = hexs (2 * w) (f i)) ->
  seed_loop h (Z.of_nat w) js = Ok (map (fun i => f i mod 16 ^ (2 * Z.of_nat w)) js).
Proof.
  intros W. induction js as [|i js IH]; intros H; cbn [seed_loop map]; [reflexivity|].
  rewrite H by (left; reflexivity). rewrite py_int16_ok by lia. cbn [bind]. rewrite IH by (intros; apply H; now right). cbn [bind]. do 3 f_equal. f_equal. lia.
Qed.
Lemma pow_check : Z.log2 (10 ^ 1000) = 3321.
Proof. vm_cast_no_check (eq_refl 3321). Qed.
Lemma ten_two k m : 0 < k -> 0 <= m -> 10 ^ k <> 2 ^ m.
Proof.
  intros K M E. assert (D : (5 | 2 ^ m)).
  { rewrite <- E. replace k with (1 + (k - 1)) by ring. rewrite Z.pow_add_r by lia. exists (2 * 10 ^ (k - 1)). ring. }
  pose proof (prime_power_prime 5 2 m M prime_5 prime_2 D) as X. discriminate X.
Qed.
Lemma denom_generic k m bits : 0 < k -> 0 <= m -> 0 <= bits -> Z.log2 (10 ^ k) = m -> (2 ^ bits <? 10 ^ k) = (bits <=? m).
Proof.
  intros K M B L. assert (T := ten_two k m K M). assert (P : 0 < 10 ^ k) by (apply Z.pow_pos_nonneg; lia). pose proof (Z.log2_spec _ P) as (P1 & P2). rewrite L in P1, P2.
  destruct (Z.leb_spec bits m) as [Q|Q].
  - apply Z.ltb_lt. assert (2 ^ bits <= 2 ^ m) by (apply Z.pow_le_mono_r; lia). lia.
  - apply Z.ltb_ge. assert (2 ^ Z.succ m <= 2 ^ bits) by (apply Z.pow_le_mono_r; lia). lia.
Qed.
Lemma denom_check bits : 0 <= bits -> (2 ^ bits <? 10 ^ 1000) = (bits <=? 3321).
Proof. intros B. exact (denom_generic 1000 3321 bits eq_refl ltac:(discriminate) B pow_check). Qed.
Lemma pow16 x : 0 <= x -> 16 ^ x = 2 ^ (4 * x).
Proof. intros H. change 16 with (2 ^ 4). now rewrite <- Z.pow_mul_r by lia. Qed.
Lemma pi_seeds_ok (num w : nat) : (0 < w)%nat -> Z.of_nat num * (8 * Z.of_nat w) <= 3321 ->
  brainpool_seeds (Z.of_nat num) (8 * Z.of_nat w) = Ok (map (fun i => U (8 * Z.of_nat w * (Z.of_nat i + 1) - 4) mod 2 ^ (8 * Z.of_nat w)) (seq 0 num)).
Proof.
  intros W B. unfold brainpool_seeds. rewrite pi_fraction_ok. cbn [bind]. cbv zeta. rewrite denom_check by lia. replace (_ <=? 3321) with true by lia. cbn [negb].
  replace (8 * Z.of_nat w / 8) with (Z.of_nat w) by (rewrite Z.mul_comm, Z.div_mul by lia; reflexivity).
  replace ((8 * Z.of_nat w) mod 8) with 0 by (rewrite Z.mul_comm, Z.mod_mul by lia; reflexivity). cbn [Z.eqb negb]. rewrite Nat2Z.id.
  set (bits := Z.of_nat num * (8 * Z.of_nat w)) in *. fold (U bits). set (L := (num * (2 * w))%nat).
  assert (EL : 4 * Z.of_nat L = bits) by (unfold L, bits; lia).
  assert (UR : 16 ^ Z.of_nat L <= U bits < 16 ^ Z.of_nat (S L)).
  { pose proof N_range as NR. assert (P10 : 0 < 10 ^ 1000) by (apply Z.pow_pos_nonneg; lia). rewrite Nat2Z.inj_succ, Z.pow_succ_r, pow16, EL by lia.
    assert (0 < 2 ^ bits) by (apply Z.pow_pos_nonneg; lia). unfold U. generalize dependent (2 ^ bits). generalize dependent (10 ^ 1000). intros t NR T y Y. split; [apply Z.div_le_lower_bound|apply Z.div_lt_upper_bound]; nia. }
  assert (HX : firstn 1000 (py_hex (U bits)) = (hexs (S L) (U bits) ++ [76])%list).
  { unfold py_hex. rewrite (hex_loop_ok L) with (acc := []); [|  |exact UR].
    - rewrite app_nil_r. apply firstn_all2. rewrite app_length, hexs_length. cbn [length]. lia.
    - assert (LG : 4 * Z.of_nat L <= Z.log2 (U bits)). { apply Z.log2_le_pow2; [|rewrite <- pow16 by lia; apply UR]. assert (0 < 16 ^ Z.of_nat L) by (apply Z.pow_pos_nonneg; lia). lia. } lia. }
  rewrite HX. rewrite (seed_loop_ok _ w (fun i => U bits / 16 ^ (Z.of_nat (S L) - 2 * Z.of_nat w * (Z.of_nat i + 1)))) by
    (exact W || (intros i Hi; apply in_seq in Hi;
     assert (SL : (S L = (S L - 2 * w * (i + 1)) + (2 * w + 2 * w * i))%nat) by (unfold L; nia);
     rewrite SL at 1; rewrite hexs_app, hexs_app, <- !app_assoc; rewrite Z.div_div by (try apply Z.pow_pos_nonneg; lia);
     rewrite slice_mid; [|rewrite hexs_length; lia|rewrite hexs_length; lia]; f_equal; f_equal; f_equal; unfold L in *; nia)).
  f_equal. apply map_ext_in. intros i Hi. apply in_seq in Hi. rewrite (pow16 (2 * Z.of_nat w)) by lia. f_equal; [|f_equal; lia].
  rewrite pow16 by (unfold L; nia). replace (8 * Z.of_nat w * (Z.of_nat i + 1) - 4) with (bits - 4 * (Z.of_nat (S L) - 2 * Z.of_nat w * (Z.of_nat i + 1))) by lia.
  assert (T0 : 0 <= Z.of_nat (S L) - 2 * Z.of_nat w * (Z.of_nat i + 1)) by (unfold L; nia).
  set (t := Z.of_nat (S L) - 2 * Z.of_nat w * (Z.of_nat i + 1)) in *. assert (4 * t <= bits) by (unfold t; nia). rewrite <- (U_div (bits - 4 * t) (4 * t)) by lia. f_equal. f_equal. lia.
Qed.

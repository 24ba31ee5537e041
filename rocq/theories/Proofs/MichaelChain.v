(** Michael on a message with a prefix is Michael with another key on the rest (C105) *)
From Coq Require Import ZArith List Bool Lia.
From Verif Require Import Proofs.Tac Model.Py Model.Michael Spec.MichaelSpec Proofs.MichaelProofs Proofs.MichaelFacts.
Import ListNotations.
Local Open Scope Z_scope.

Lemma le_words_app n : forall P t, length P = (4 * n)%nat -> le_words (P ++ t) = le_words P ++ le_words t.
Proof.
  induction n as [|n IH]; intros P t L; [destruct P; [reflexivity|discriminate]|].
  destruct P as [|x [|y [|z [|w P]]]]; cbn [length] in L; try lia. cbn [app le_words]. rewrite IH by lia. reflexivity.
Qed.
Lemma pad_app n P m : length P = (4 * n)%nat -> mic_pad (P ++ m) = P ++ mic_pad m.
Proof.
  intros L. unfold mic_pad. rewrite <- app_assoc, app_length, L. do 4 f_equal.
  replace (- (Z.of_nat (4 * n + length m) + 5)) with (- (Z.of_nat (length m) + 5) + (- Z.of_nat n) * 4) by lia. rewrite Z.mod_add by lia. reflexivity.
Qed.
Lemma ieee_pair l r m : word l -> word r ->
  ieee_michael (le4 l ++ le4 r) m = let s := fold_left absorb (le_words (mic_pad m)) (l, r) in le4 (fst s) ++ le4 (snd s).
Proof.
  intros L R. unfold ieee_michael. rewrite le4_words by exact L. rewrite <- (app_nil_r (le4 r)), le4_words by exact R. cbn [le_words].
  change (fun s w => block (Z.lxor (fst s) w) (snd s)) with absorb. destruct (fold_left absorb (le_words (mic_pad m)) (l, r)); reflexivity.
Qed.
Lemma pair_key l r : octets (le4 l ++ le4 r) /\ len (le4 l ++ le4 r) = 8.
Proof.
  destruct (le4_ok l) as (A & B), (le4_ok r) as (C & D). split; [apply Forall_app; now split|]. unfold len. rewrite app_length, B, D. reflexivity.
Qed.
Lemma c105_prefix : forall key P, octets key -> len key = 8 -> octets P -> len P mod 4 = 0 ->
  exists key', octets key' /\ len key' = 8 /\ forall m, octets m -> michael key (P ++ m) = michael key' m.
Proof.
  intros key P OK LK OP LP. destruct (le4_split key OK LK) as (l & r & WL & WR & ->).
  assert (L : length P = (4 * Z.to_nat (len P / 4))%nat) by (unfold len in *; lia).
  assert (W : wpair (fold_left absorb (le_words P) (l, r))) by (apply fold_absorb_w; [now apply (le_words_words (length P))|now split]).
  destruct (fold_left absorb (le_words P) (l, r)) as (l', r') eqn:E. destruct W as (W1 & W2). cbn [fst snd] in W1, W2.
  destruct (pair_key l r) as (K1 & K2), (pair_key l' r') as (K3 & K4). exists (le4 l' ++ le4 r'). split; [exact K3|]. split; [exact K4|].
  intros m OM. assert (OPM : octets (P ++ m)) by (apply Forall_app; now split).
  rewrite (proj1 (c31_ieee _ _ K1 OPM K2)), (proj1 (c31_ieee _ _ K3 OM K4)). f_equal. rewrite !ieee_pair by assumption.
  rewrite (pad_app _ _ _ L), (le_words_app _ _ _ L), fold_left_app, E. reflexivity.
Qed.
Lemma c105_unique : forall key P k1 k2 m0, octets k1 -> octets k2 -> len k1 = 8 -> len k2 = 8 -> octets m0 ->
  michael key (P ++ m0) = michael k1 m0 -> michael key (P ++ m0) = michael k2 m0 -> k1 = k2.
Proof. intros key P k1 k2 m0 O1 O2 L1 L2 OM E1 E2. apply (c32_keys_differ m0); auto. congruence. Qed.
Lemma c105_collision : forall key key' P P' m m', octets key -> len key = 8 -> octets key' -> len key' = 8 ->
  octets P -> len P mod 4 = 0 -> octets P' -> len P' mod 4 = 0 -> octets m -> octets m' ->
  michael key (P ++ m) = michael key' (P' ++ m) -> michael key (P ++ m') = michael key' (P' ++ m').
Proof.
  intros key key' P P' m m' K L K' L' OP LP OP' LP' OM OM' E.
  destruct (c105_prefix key P K L OP LP) as (k1 & A1 & B1 & C1). destruct (c105_prefix key' P' K' L' OP' LP') as (k2 & A2 & B2 & C2).
  rewrite (C1 m OM), (C2 m OM) in E. assert (k1 = k2) by (apply (c32_keys_differ m); auto). subst k2. now rewrite (C1 m' OM'), (C2 m' OM').
Qed.
Lemma NoDup_app_one {A} (l : list A) x : NoDup l -> ~ In x l -> NoDup (l ++ [x]).
Proof.
  induction l as [|y l IH]; intros ND N; [constructor; [auto|constructor]|]. inversion ND as [|? ? N1 ND1]; subst. cbn [app]. constructor; [|apply IH; [exact ND1|intros I; apply N; now right]].
  intros I. apply in_app_or in I as [I|[I|[]]]; [contradiction|]. apply N. left. now symmetry.
Qed.
Lemma pigeon (N : nat) (f : nat -> Z) : (forall i, 0 <= f i < Z.of_nat N) -> exists i j, (i < j <= N)%nat /\ f i = f j.
Proof.
  intros R. assert (D : ~ NoDup (map f (seq 0 (Datatypes.S N)))).
  { intros ND. pose proof (NoDup_incl_length (l' := map Z.of_nat (seq 0 N)) ND) as Q. rewrite !map_length, !seq_length in Q. enough (Datatypes.S N <= N)%nat by lia. apply Q.
    intros z I. apply in_map_iff in I as (i & <- & _). apply in_map_iff. exists (Z.to_nat (f i)). specialize (R i). split; [lia|]. apply in_seq. lia. }
  clear R. assert (G : forall n, ~ NoDup (map f (seq 0 n)) -> exists i j, (i < j < n)%nat /\ f i = f j).
  { induction n as [|n IH]; intros H; [exfalso; apply H; constructor|]. rewrite seq_S, map_app in H. cbn [map Nat.add] in H.
    destruct (in_dec Z.eq_dec (f n) (map f (seq 0 n))) as [I|I].
    - apply in_map_iff in I as (i & E & J). apply in_seq in J. exists i, n. split; [lia|exact E].
    - destruct IH as (i & j & B & E); [|exists i, j; split; [lia|exact E]]. intros ND. apply H. apply NoDup_app_one; assumption. }
  destruct (G _ D) as (i & j & B & E). exists i, j. split; [lia|exact E].
Qed.
Fixpoint times {A} (n : nat) (g : A -> A) (s : A) : A := match n with O => s | Datatypes.S n => times n g (g s) end.
Lemma times_S {A} n (g : A -> A) : forall s, times (Datatypes.S n) g s = g (times n g s).
Proof. induction n as [|n IH]; intros s; [reflexivity|]. cbn [times] in *. now rewrite <- IH. Qed.
Lemma times_add {A} a b (g : A -> A) s : times (a + b) g s = times a g (times b g s).
Proof. induction a as [|a IH]; [reflexivity|]. cbn [Nat.add]. now rewrite !times_S, IH. Qed.
Section Cycle.
Variable g : Z * Z -> Z * Z.
Hypothesis gw : forall s, wpair s -> wpair (g s).
Hypothesis gi : forall s t, wpair s -> wpair t -> g s = g t -> s = t.
Lemma times_w n : forall s, wpair s -> wpair (times n g s).
Proof. induction n as [|n IH]; intros s W; [exact W|]. cbn [times]. apply IH, gw, W. Qed.
Lemma times_inj n : forall s t, wpair s -> wpair t -> times n g s = times n g t -> s = t.
Proof. induction n as [|n IH]; intros s t A B E; [exact E|]. cbn [times] in E. apply gi; auto. Qed.
Lemma cycle s : wpair s -> exists n, (0 < n)%nat /\ times n g s = s.
Proof.
  intros W. destruct (pigeon (Z.to_nat (2 ^ 64)) (fun i => fst (times i g s) * 2 ^ 32 + snd (times i g s))) as (i & j & B & E).
  - intros i. destruct (times_w i s W) as (A & C). rewrite Z2Nat.id by lia. unfold word in *. change (2 ^ 64) with (2 ^ 32 * 2 ^ 32). nia.
  - cbv beta in E. destruct (times_w i s W) as (A & C), (times_w j s W) as (A' & C'). unfold word in *.
    assert (Q : times i g s = times j g s) by (apply injective_projections; nia).
    exists (j - i)%nat. split; [lia|]. apply (times_inj i); [now apply times_w|exact W|]. rewrite <- times_add. replace (i + (j - i))%nat with j by lia. now symmetry.
Qed.
End Cycle.
Lemma fold_times P n : forall k s, length P = (4 * k)%nat -> fold_left absorb (le_words (concat (repeat P n))) s = times n (fold_left absorb (le_words P)) s.
Proof.
  induction n as [|n IH]; intros k s L; [reflexivity|]. cbn [repeat concat times]. rewrite (le_words_app k) by exact L. rewrite fold_left_app. now apply (IH k).
Qed.
Lemma concat_len (P : list Z) n : length (concat (repeat P n)) = (n * length P)%nat.
Proof. induction n as [|n IH]; [reflexivity|]. cbn [repeat concat]. rewrite app_length, IH. reflexivity. Qed.
Lemma c105_cycle : forall key P, octets key -> len key = 8 -> octets P -> len P mod 4 = 0 ->
  exists n, (0 < n)%nat /\ forall m, octets m -> michael key (concat (repeat P n) ++ m) = michael key m.
Proof.
  intros key P OK LK OP LP. destruct (le4_split key OK LK) as (l & r & WL & WR & ->).
  assert (L : length P = (4 * Z.to_nat (len P / 4))%nat) by (unfold len in *; lia).
  assert (FW : Forall word (le_words P)) by now apply (le_words_words (length P)).
  destruct (cycle (fold_left absorb (le_words P)) (fold_absorb_w _ FW) (fold_absorb_inj _ FW) (l, r)) as (n & N & E); [now split|].
  exists n. split; [exact N|]. intros m OM. destruct (pair_key l r) as (K1 & K2).
  assert (OC : octets (concat (repeat P n))) by (clear - OP; induction n as [|n IH]; [constructor|]; cbn [repeat concat]; apply Forall_app; now split).
  assert (OPM : octets (concat (repeat P n) ++ m)) by (apply Forall_app; now split).
  rewrite (proj1 (c31_ieee _ _ K1 OPM K2)), (proj1 (c31_ieee _ _ K1 OM K2)). f_equal. rewrite !ieee_pair by assumption.
  assert (LC : length (concat (repeat P n)) = (4 * (n * Z.to_nat (len P / 4)))%nat) by (rewrite concat_len; lia).
  rewrite (pad_app _ _ _ LC), (le_words_app _ _ _ LC), fold_left_app, (fold_times _ _ _ _ L), E. reflexivity.
Qed.
Lemma absorb_word s w w' : wpair s -> word w -> word w' -> absorb s w = absorb s w' -> w = w'.
Proof.
  intros (A & B) W W' E. unfold absorb in E. assert (Q : (Z.lxor (fst s) w, snd s) = (Z.lxor (fst s) w', snd s)).
  { rewrite <- (unblock_block (Z.lxor (fst s) w, snd s)) by (split; [apply word_lxor; assumption|exact B]). rewrite <- (unblock_block (Z.lxor (fst s) w', snd s)) by (split; [apply word_lxor; assumption|exact B]).
    cbn [fst snd]. now rewrite E. }
  apply (f_equal fst) in Q. cbn [fst] in Q. apply (f_equal (Z.lxor (fst s))) in Q. now rewrite <- !Z.lxor_assoc, Z.lxor_nilpotent, !Z.lxor_0_l in Q.
Qed.
Lemma c105_word : forall key P W W' m, octets key -> len key = 8 -> octets P -> len P mod 4 = 0 ->
  octets W -> len W = 4 -> octets W' -> len W' = 4 -> octets m -> W <> W' -> michael key (P ++ W ++ m) <> michael key (P ++ W' ++ m).
Proof.
  intros key P W W' m OK LK OP LP OW LW OW' LW' OM D E. apply D. destruct (c105_prefix key P OK LK OP LP) as (k & A & B & C).
  rewrite !C in E by (apply Forall_app; now split). destruct (le4_split k A B) as (l & r & WL & WR & ->).
  destruct (words_le4 W OW ltac:(unfold len in LW; lia)) as (w & Ww & ->). destruct (words_le4 W' OW' ltac:(unfold len in LW'; lia)) as (w' & Ww' & ->). f_equal.
  destruct (pair_key l r) as (K1 & K2). rewrite (proj1 (c31_ieee _ _ K1 (proj2 (Forall_app _ _ _) (conj OW OM)) K2)), (proj1 (c31_ieee _ _ K1 (proj2 (Forall_app _ _ _) (conj OW' OM)) K2)) in E.
  assert (I : forall a b : str, Ok a = Ok b -> a = b) by (intros; congruence). apply I in E. rewrite !ieee_pair in E by assumption.
  rewrite !(pad_app 1) in E by apply le4_ok. rewrite !le4_words in E by assumption. cbn [fold_left] in E.
  assert (S1 : wpair (absorb (l, r) w)) by (apply absorb_w; [now split|assumption]). assert (S2 : wpair (absorb (l, r) w')) by (apply absorb_w; [now split|assumption]).
  assert (FW : Forall word (le_words (mic_pad m))) by (apply (le_words_words (length (mic_pad m))); [lia|now apply mic_pad_octets]).
  apply (absorb_word (l, r)); [now split|assumption|assumption|]. apply (fold_absorb_inj _ FW); [assumption|assumption|].
  pose proof (fold_absorb_w _ FW _ S1) as (U1 & U2). pose proof (fold_absorb_w _ FW _ S2) as (V1 & V2).
  set (s1 := fold_left absorb (le_words (mic_pad m)) (absorb (l, r) w)) in *. set (s2 := fold_left absorb (le_words (mic_pad m)) (absorb (l, r) w')) in *.
  clearbody s1 s2. apply app_len_inj in E as (E1 & E2); [|unfold len; now rewrite !(proj2 (le4_ok _))]. apply injective_projections; apply le4_inj; assumption.
Qed.

(** Polynomial arithmetic of ecc/numbertheory.py, evaluated in an arbitrary commutative ring. *)
From Coq Require Import Ring.
From Verif Require Import Proofs.Tac Model.NumberTheory.
Local Open Scope Z_scope.

Lemma set_nth_length l i v : length (set_nth l i v) = length l.
Proof. revert i. induction l as [|x l IH]; intros [|i]; cbn; auto. Qed.
Lemma nth_set_nth_same l i v d : (i < length l)%nat -> nth i (set_nth l i v) d = v.
Proof.
  revert i. induction l as [|x l IH]; intros i H; [cbn in H; lia|]. destruct i as [|i]; [reflexivity|].
  cbn in H |- *. apply IH. lia.
Qed.
Lemma nth_set_nth_other l i j v d : i <> j -> nth j (set_nth l i v) d = nth j l d.
Proof.
  revert i j. induction l as [|x l IH]; intros [|i] [|j] H; cbn; auto. congruence.
Qed.

Lemma firstn_S_nth n : forall (l : list Z), (n < length l)%nat -> firstn (S n) l = firstn n l ++ [nth n l 0].
Proof.
  induction n as [|n IH]; intros [|x l] H; cbn [length] in H; try lia; [reflexivity|].
  change (firstn (S (S n)) (x :: l)) with (x :: firstn (S n) l). rewrite IH by lia. reflexivity.
Qed.

Section Eval.
Context {K : Type} (k0 k1 : K) (kadd kmul ksub : K -> K -> K) (kopp : K -> K).
Context (Kring : ring_theory k0 k1 kadd kmul ksub kopp (@eq K)).
Add Ring K : Kring.
Context (phi : Z -> K).
Context (phi0 : phi 0 = k0) (phi1 : phi 1 = k1).
Context (phi_add : forall a b, phi (a + b) = kadd (phi a) (phi b)).
Context (phi_mul : forall a b, phi (a * b) = kmul (phi a) (phi b)).
Local Infix "+!" := kadd (at level 50, left associativity).
Local Infix "*!" := kmul (at level 40, left associativity).
Local Infix "-!" := ksub (at level 50, left associativity).

Lemma phi_opp a : phi (- a) = kopp (phi a).
Proof.
  assert (E : phi a +! phi (- a) = k0) by (rewrite <- phi_add, Z.add_opp_diag_r; exact phi0).
  transitivity (kopp (phi a) +! (phi a +! phi (- a))); [ring|rewrite E; ring].
Qed.
Lemma phi_sub a b : phi (a - b) = phi a -! phi b.
Proof. rewrite <- Z.add_opp_r, phi_add, phi_opp. ring. Qed.
Lemma phi_mod a p : p <> 0 -> phi (a mod p) = phi a -! phi p *! phi (a / p).
Proof. intros H. rewrite Z.mod_eq by auto. now rewrite phi_sub, phi_mul. Qed.

Definition pe (l : list Z) (t : K) : K := fold_right (fun c acc => phi c +! t *! acc) k0 l.
Fixpoint kpow (t : K) (n : nat) : K := match n with O => k1 | S n => t *! kpow t n end.

Lemma kpow_add t n m : kpow t (n + m) = kpow t n *! kpow t m.
Proof. induction n as [|n IH]; cbn [Nat.add kpow]; [ring|]. rewrite IH. ring. Qed.
Lemma pe_cons c l t : pe (c :: l) t = phi c +! t *! pe l t.
Proof. reflexivity. Qed.
Lemma pe_nil t : pe [] t = k0.
Proof. reflexivity. Qed.
Ltac pes := rewrite ?pe_cons, ?pe_nil.
Lemma pe_app l l' t : pe (l ++ l') t = pe l t +! kpow t (length l) *! pe l' t.
Proof. induction l as [|c l IH]; cbn [app length kpow]; pes; [ring|]. rewrite IH. ring. Qed.
Lemma pe_set l i v t : (i < length l)%nat -> pe (set_nth l i v) t = pe l t +! kpow t i *! (phi v -! phi (nth i l 0)).
Proof.
  revert i. induction l as [|x l IH]; intros [|i] H; cbn [length] in H; try lia; cbn [set_nth nth kpow]; rewrite !pe_cons; [ring|].
  rewrite IH by lia. ring.
Qed.
Lemma pe_zeros n t : pe (repeat 0 n) t = k0.
Proof. induction n as [|n IH]; [reflexivity|]. cbn [repeat]. rewrite pe_cons, IH, phi0. ring. Qed.

(** list polynomials *)
Fixpoint padd (a b : list Z) : list Z :=
  match a, b with [], _ => b | _, [] => a | x :: a', y :: b' => x + y :: padd a' b' end.
Fixpoint pmul (a b : list Z) : list Z :=
  match a with [] => [] | x :: a' => padd (map (Z.mul x) b) (0 :: pmul a' b) end.
Definition mono (c : Z) (n : nat) : list Z := repeat 0 n ++ [c].
Lemma pe_padd a : forall b t, pe (padd a b) t = pe a t +! pe b t.
Proof.
  induction a as [|x a IH]; intros [|y b] t; cbn [padd].
  - pes; ring.
  - rewrite pe_nil. ring.
  - rewrite pe_nil. ring.
  - rewrite !pe_cons, IH, phi_add. ring.
Qed.
Lemma pe_scale c b t : pe (map (Z.mul c) b) t = phi c *! pe b t.
Proof. induction b as [|x b IH]; cbn [map]; [pes; ring|]. rewrite !pe_cons, IH, phi_mul. ring. Qed.
Lemma pe_pmul a b t : pe (pmul a b) t = pe a t *! pe b t.
Proof.
  induction a as [|x a IH]; cbn [pmul]; [pes; ring|]. rewrite pe_padd, pe_scale, !pe_cons, IH, phi0. ring.
Qed.
Lemma pe_mono c n t : pe (mono c n) t = phi c *! kpow t n.
Proof. unfold mono. rewrite pe_app, pe_zeros, repeat_length. pes. ring. Qed.
Definition pone : list Z := [1].
Lemma pe_one t : pe [1] t = k1.
Proof. pes. rewrite phi1. ring. Qed.
Fixpoint ppow (a : list Z) (n : nat) : list Z := match n with O => [1] | S n => pmul a (ppow a n) end.
Lemma pe_ppow a n t : pe (ppow a n) t = kpow (pe a t) n.
Proof. induction n as [|n IH]; cbn [ppow kpow]; [apply pe_one|]. now rewrite pe_pmul, IH. Qed.

Section Mod.
Context (f : list Z) (p : Z) (Hp : p <> 0).

(** congruence modulo p, and modulo (f, p) *)
Definition cp (a b : list Z) : Prop := exists h, forall t, pe a t = pe b t +! phi p *! pe h t.
Definition cf (a b : list Z) : Prop := exists q h, forall t, pe a t = pe b t +! pe q t *! pe f t +! phi p *! pe h t.

Lemma cp_cf a b : cp a b -> cf a b.
Proof. intros (h & H). exists [], h. intros t. rewrite H. pes. ring. Qed.
Lemma cf_refl a : cf a a.
Proof. exists [], []. intros t. pes. ring. Qed.
Lemma cf_trans a b c : cf a b -> cf b c -> cf a c.
Proof.
  intros (q & h & H) (q' & h' & H'). exists (padd q q'), (padd h h'). intros t. rewrite H, H', !pe_padd. ring.
Qed.
Lemma cf_mul a b c d : cf a b -> cf c d -> cf (pmul a c) (pmul b d).
Proof.
  intros (q & h & H) (q' & h' & H').
  exists (padd (pmul q c) (pmul b q')), (padd (pmul h c) (pmul b h')). intros t.
  rewrite !pe_padd, !pe_pmul, H.
  transitivity (pe b t *! pe c t +! (pe q t *! pe f t +! phi p *! pe h t) *! pe c t); [ring|].
  rewrite H' at 1. ring.
Qed.
Lemma cf_ext a b c : (forall t, pe b t = pe c t) -> cf a b -> cf a c.
Proof. intros E (q & h & H). exists q, h. intros t. rewrite <- E. apply H. Qed.

(** multiplication *)
Lemma inner_loop m1 m2 i prod : forall n, (n <= length m2)%nat -> (i + n <= length prod)%nat ->
  let r := fold_left (fun prod j => set_nth prod (i + j) ((nth (i + j) prod 0 + nth i m1 0 * nth j m2 0) mod p)) (seq 0 n) prod in
  length r = length prod /\
  exists h, forall t, pe r t = pe prod t +! kpow t i *! phi (nth i m1 0) *! pe (firstn n m2) t +! phi p *! pe h t.
Proof.
  induction n as [|n IH]; intros H1 H2; cbv zeta.
  - cbn [seq fold_left firstn]. split; [reflexivity|]. exists []. intros t. pes. ring.
  - rewrite seq_S, fold_left_app. cbn [fold_left]. destruct (IH ltac:(lia) ltac:(lia)) as (L & h & E).
    set (r := fold_left _ (seq 0 n) prod) in *. cbn [Nat.add].
    split; [now rewrite set_nth_length|].
    exists (padd h (mono (- ((nth (i + n) r 0 + nth i m1 0 * nth n m2 0) / p)) (i + n))). intros t.
    rewrite pe_set by lia. rewrite E, pe_padd, pe_mono, phi_mod, phi_opp, phi_add, phi_mul by auto.
    replace (firstn (S n) m2) with (firstn n m2 ++ [nth n m2 0]).
    2:{ symmetry. apply firstn_S_nth. lia. }
    rewrite pe_app, firstn_length_le by lia. pes. rewrite kpow_add. ring.
Qed.
Lemma outer_loop m1 m2 : forall n, (n <= length m1)%nat ->
  let r := fold_left (fun prod i =>
    fold_left (fun prod j => set_nth prod (i + j) ((nth (i + j) prod 0 + nth i m1 0 * nth j m2 0) mod p)) (seq 0 (length m2)) prod)
    (seq 0 n) (repeat 0 (length m1 + length m2 - 1)) in
  length r = (length m1 + length m2 - 1)%nat /\
  exists h, forall t, pe r t = pe (firstn n m1) t *! pe m2 t +! phi p *! pe h t.
Proof.
  induction n as [|n IH]; intros H1; cbv zeta.
  - cbn [seq fold_left firstn]. split; [apply repeat_length|]. exists []. intros t. rewrite pe_zeros. pes. ring.
  - rewrite seq_S, fold_left_app. cbn [fold_left Nat.add]. destruct (IH ltac:(lia)) as (L & h & E).
    set (r := fold_left _ (seq 0 n) _) in *.
    destruct (inner_loop m1 m2 n r (length m2) (le_n _)) as (L' & h' & E').
    { destruct m2; cbn [length] in *; lia. }
    split; [congruence|]. exists (padd h h'). intros t. rewrite E', E, pe_padd, firstn_all.
    replace (firstn (S n) m1) with (firstn n m1 ++ [nth n m1 0]).
    2:{ symmetry. apply firstn_S_nth. lia. }
    rewrite pe_app, firstn_length_le by lia. pes. ring.
Qed.
Lemma multiply_raw_spec m1 m2 : cp (multiply_raw m1 m2 p) (pmul m1 m2).
Proof.
  destruct (outer_loop m1 m2 (length m1) (le_n _)) as (_ & h & E). rewrite firstn_all in E.
  exists h. intros t. rewrite pe_pmul. apply E.
Qed.

(** reduction *)
Context (Hmonic : get_neg f 1 = 1) (Hlen : (1 < length f)%nat).

Lemma reduce_row_aux poly : (length f <= length poly)%nat -> forall k, (k <= length f - 1)%nat ->
  let r := fold_left (fun poly i => set_neg poly i ((get_neg poly i - get_neg poly 1 * get_neg f i) mod p)) (seq 2 k) poly in
  length r = length poly /\ nth (length poly - 1) r 0 = nth (length poly - 1) poly 0 /\
  exists h, forall t, pe r t = pe poly t -!
     phi (get_neg poly 1) *! kpow t (length poly - 1 - k) *! pe (firstn k (skipn (length f - 1 - k) f)) t +! phi p *! pe h t.
Proof.
  intros HL. induction k as [|k IH]; intros Hk; cbv zeta.
  - cbn [seq fold_left firstn]. split; [auto|]. split; [auto|]. exists []. intros t. pes. ring.
  - rewrite seq_S, fold_left_app. cbn [fold_left]. destruct (IH ltac:(lia)) as (L & T & h & E). clear IH.
    set (r := fold_left _ (seq 2 k) poly) in *.
    unfold set_neg. rewrite set_nth_length. split; [exact L|]. split.
    { rewrite nth_set_nth_other by lia. exact T. }
    unfold get_neg in *. rewrite L. set (i := (length poly - (2 + k))%nat).
    set (v := nth i r 0 - nth (length poly - 1) r 0 * nth (length f - (2 + k)) f 0).
    exists (padd h (mono (- (v / p)) i)). intros t.
    rewrite pe_set by lia. rewrite E, pe_padd, pe_mono, phi_mod, phi_opp by auto. unfold v at 1. rewrite phi_sub, phi_mul, T.
    replace (length poly - 1 - S k)%nat with i by lia. replace (length poly - 1 - k)%nat with (S i) by lia.
    replace (length f - (2 + k))%nat with (length f - 1 - S k)%nat by lia.
    assert (X : skipn (length f - 1 - S k) f = nth (length f - 1 - S k) f 0 :: skipn (length f - 1 - k) f).
    { replace (length f - 1 - k)%nat with (S (length f - 1 - S k)) by lia.
      assert (Y : (length f - 1 - S k < length f)%nat) by lia. revert Y. generalize (length f - 1 - S k)%nat. clear.
      intros m. revert m. induction f as [|x l IHl]; intros [|m] Y; cbn [length] in Y; try lia; [reflexivity|].
      cbn [skipn nth]. apply IHl. lia. }
    rewrite X. cbn [firstn]. rewrite pe_cons. cbn [kpow]. ring.
Qed.

Lemma firstn_pred_app {A} (l : list A) d : l <> [] -> firstn (length l - 1) l ++ [nth (length l - 1) l d] = l.
Proof.
  intros H. destruct (@exists_last _ l H) as (l' & x & ->). rewrite app_length. cbn [length].
  replace (length l' + 1 - 1)%nat with (length l') by lia. rewrite firstn_app, firstn_all, Nat.sub_diag. cbn [firstn].
  rewrite app_nth2 by lia. rewrite Nat.sub_diag, app_nil_r. reflexivity.
Qed.
Lemma pe_removelast l t : l <> [] -> pe (removelast l) t = pe l t -! kpow t (length l - 1) *! phi (nth (length l - 1) l 0).
Proof.
  intros H. destruct (@exists_last _ l H) as (l' & x & ->). rewrite removelast_last, app_length, pe_app. cbn [length].
  replace (length l' + 1 - 1)%nat with (length l') by lia. rewrite app_nth2, Nat.sub_diag by lia. cbn [nth]. pes. ring.
Qed.

Lemma reduce_step poly : (length f <= length poly)%nat ->
  cf (removelast (if negb (get_neg poly 1 =? 0) then reduce_row f p poly else poly)) poly /\
  length (removelast (if negb (get_neg poly 1 =? 0) then reduce_row f p poly else poly)) = (length poly - 1)%nat.
Proof.
  intros HL. assert (Hf0 : f <> []) by (intros E; rewrite E in Hlen; cbn in Hlen; lia).
  assert (Hp0 : poly <> []) by (intros E; rewrite E in HL; cbn in HL; lia).
  destruct (reduce_row_aux poly HL (length f - 1) (le_n _)) as (L & T & h & E).
  change (fold_left _ (seq 2 (length f - 1)) poly) with (reduce_row f p poly) in *.
  destruct (get_neg poly 1 =? 0) eqn:E0; cbn [negb].
  - apply Z.eqb_eq in E0. split; [|now rewrite removelast_firstn_len, firstn_length_le; lia].
    exists [], []. intros t. rewrite pe_removelast by auto. unfold get_neg in E0. rewrite E0, phi0. pes. ring.
  - assert (Hr0 : reduce_row f p poly <> []) by (intros X; rewrite X in L; cbn in L; lia).
    split; [|rewrite removelast_firstn_len, firstn_length_le; lia].
    exists (mono (- get_neg poly 1) (length poly - length f)), h. intros t.
    rewrite pe_removelast, L, T, E by auto.
    rewrite Nat.sub_diag. cbn [skipn]. rewrite pe_mono, phi_opp.
    replace (length poly - 1 - (length f - 1))%nat with (length poly - length f)%nat by lia.
    assert (F : pe f t = pe (firstn (length f - 1) f) t +! kpow t (length f - 1)).
    { transitivity (pe (firstn (length f - 1) f ++ [nth (length f - 1) f 0]) t); [now rewrite firstn_pred_app|].
      rewrite pe_app, firstn_length_le by lia. unfold get_neg in Hmonic. rewrite Hmonic. pes. rewrite phi1. ring. }
    rewrite F. unfold get_neg.
    replace (length poly - 1)%nat with ((length poly - length f) + (length f - 1))%nat by lia. rewrite kpow_add. ring.
Qed.
Lemma reduce_loop_spec n : forall poly, (length poly <= n)%nat ->
  cf (reduce_loop n poly f p) poly /\ (length (reduce_loop n poly f p) < length f)%nat.
Proof.
  induction n as [|n IH]; intros poly H; cbn [reduce_loop].
  - split; [apply cf_refl|lia].
  - destruct (length f <=? length poly)%nat eqn:E.
    + apply Nat.leb_le in E. destruct (reduce_step poly E) as (C & L). cbv zeta.
      destruct (IH (removelast (if negb (get_neg poly 1 =? 0) then reduce_row f p poly else poly))) as (C' & L'); [lia|].
      split; [eapply cf_trans; eauto|exact L'].
    + apply Nat.leb_gt in E. split; [apply cf_refl|exact E].
Qed.
Lemma reduce_mod_ok poly : polynomial_reduce_mod poly f p = Ok (reduce_loop (length poly) poly f p).
Proof.
  unfold polynomial_reduce_mod. destruct f as [|x l] eqn:Ef; [cbn in Hlen; lia|]. rewrite <- Ef in *.
  unfold py_assert. rewrite Hmonic, Z.eqb_refl. unfold len. replace (1 <? Z.of_nat (length f)) with true by lia. cbn [bind].
  apply Z.eqb_neq in Hp. now rewrite Hp.
Qed.
Lemma multiply_mod_spec m1 m2 : exists r, polynomial_multiply_mod m1 m2 f p = Ok r /\ (length r < length f)%nat /\ cf r (pmul m1 m2).
Proof.
  unfold polynomial_multiply_mod. apply Z.eqb_neq in Hp as Hp'. rewrite Hp', reduce_mod_ok. eexists. split; [reflexivity|].
  destruct (reduce_loop_spec _ (multiply_raw m1 m2 p) (le_n _)) as (C & L). split; [exact L|].
  eapply cf_trans; [exact C|]. apply cp_cf, multiply_raw_spec.
Qed.

Lemma exp_loop_spec fuel : forall k G s, 0 <= k -> k < 2 ^ Z.of_nat fuel ->
  exists r, exp_loop fuel k G s f p = Ok r /\ ((length r < length f)%nat \/ (r = s /\ k <= 1)) /\
    cf r (pmul s (ppow (pmul G G) (Z.to_nat (k / 2)))).
Proof.
  assert (Base : forall k G s, 0 <= k <= 1 -> cf s (pmul s (ppow (pmul G G) (Z.to_nat (k / 2))))).
  { intros k G s H. apply cf_ext with s; [|apply cf_refl]. intros t. replace (Z.to_nat (k / 2)) with O by lia.
    cbn [ppow]. rewrite pe_pmul, pe_one. ring. }
  induction fuel as [|fuel IH]; intros k G s H0 H1.
  - cbn in H1. cbn [exp_loop]. replace (1 <? k) with false by lia. exists s. split; [reflexivity|]. split; [right; split; auto; lia|].
    apply Base. lia.
  - cbn [exp_loop]. destruct (1 <? k) eqn:E1.
    2:{ exists s. split; [reflexivity|]. split; [right; split; auto; lia|]. apply Base. lia. }
    destruct (multiply_mod_spec G G) as (G' & EG & LG & CG). rewrite EG. cbn [bind].
    assert (S1 : exists s', (if (k / 2) mod 2 =? 1 then polynomial_multiply_mod G' s f p else Ok s) = Ok s' /\
       ((length s' < length f)%nat \/ (k / 2) mod 2 = 0) /\ cf s' (pmul (ppow G' (Z.to_nat ((k / 2) mod 2))) s)).
    { destruct ((k / 2) mod 2 =? 1) eqn:Ek.
      - destruct (multiply_mod_spec G' s) as (s' & A & B & C). exists s'. split; [exact A|]. split; [auto|].
        apply Z.eqb_eq in Ek. rewrite Ek. eapply cf_ext; [|exact C]. intros t. rewrite !pe_pmul, pe_ppow.
        change (Z.to_nat 1) with 1%nat. cbn [kpow]. ring.
      - assert ((k / 2) mod 2 = 0) as Z0 by lia. exists s. split; [reflexivity|]. split; [auto|]. rewrite Z0. change (Z.to_nat 0) with O.
        apply cf_ext with s; [|apply cf_refl]. intros t. rewrite pe_pmul. cbn [ppow]. rewrite pe_one. ring. }
    destruct S1 as (s' & A & B & C). rewrite A. cbn [bind].
    assert (P2 : 2 ^ Z.of_nat (Datatypes.S fuel) = 2 * 2 ^ Z.of_nat fuel) by (rewrite Nat2Z.inj_succ, Z.pow_succ_r; lia).
    rewrite P2 in H1. destruct (IH (k / 2) G' s') as (r & R1 & R2 & R3); [lia|lia|].
    exists r. split; [exact R1|]. split.
    + left. destruct R2 as [|(-> & Hk)]; [auto|]. destruct B as [|B]; [auto|]. assert (k / 2 = 1) by lia. rewrite H in B. discriminate.
    + eapply cf_trans; [exact R3|]. 
      assert (CP : forall n, cf (ppow (pmul G' G') n) (ppow (pmul (pmul G G) (pmul G G)) n)).
      { induction n as [|n IHn]; [apply cf_refl|]. cbn [ppow]. apply cf_mul; [|exact IHn]. now apply cf_mul. }
      assert (CQ : forall n, cf (ppow G' n) (ppow (pmul G G) n)).
      { induction n as [|n IHn]; [apply cf_refl|]. cbn [ppow]. now apply cf_mul. }
      eapply cf_trans; [apply cf_mul; [exact C|apply CP]|].
      eapply cf_trans; [apply cf_mul; [apply cf_mul; [apply CQ|apply cf_refl]|apply cf_refl]|].
      eapply cf_ext; [|apply cf_refl]. intros t. rewrite !pe_pmul, !pe_ppow, !pe_pmul.
      set (x := pe G t *! pe G t).
      replace (Z.to_nat (k / 2)) with (Z.to_nat ((k / 2) mod 2) + 2 * Z.to_nat (k / 2 / 2))%nat by lia.
      rewrite kpow_add.
      assert (D : forall n, kpow x (2 * n) = kpow (x *! x) n).
      { induction n as [|n IHn]; [reflexivity|]. replace (2 * S n)%nat with (S (S (2 * n))) by lia. cbn [kpow]. rewrite IHn. ring. }
      rewrite D. ring.
Qed.

Lemma exp_mod_spec fuel base e : 0 <= e < p -> (0 < p -> e < 2 ^ Z.of_nat fuel) ->
  exists r, polynomial_exp_mod fuel base e f p = Ok r /\ ((length r < length f)%nat \/ (e = 1 /\ r = base)) /\ cf r (ppow base (Z.to_nat e)).
Proof.
  intros He Hf. unfold polynomial_exp_mod, py_assert. replace (e <? p) with true by lia. cbn [bind].
  destruct (e =? 0) eqn:E0.
  - apply Z.eqb_eq in E0. subst e. exists [1]. split; [reflexivity|]. split; [left; cbn [length]; lia|]. apply cf_refl.
  - destruct (exp_loop_spec fuel e base (if e mod 2 =? 1 then base else [1])) as (r & A & B & C); [lia|lia|].
    exists r. split; [exact A|]. split.
    + destruct B as [|(-> & Hk)]; [auto|]. right. assert (e = 1) by lia. subst e. auto.
    + eapply cf_ext; [|exact C]. intros t. rewrite pe_pmul, !pe_ppow, pe_pmul.
      set (x := pe base t). replace (Z.to_nat e) with (Z.to_nat (e mod 2) + 2 * Z.to_nat (e / 2))%nat by lia. rewrite kpow_add.
      assert (D : forall n, kpow x (2 * n) = kpow (x *! x) n).
      { induction n as [|n IHn]; [reflexivity|]. replace (2 * S n)%nat with (S (S (2 * n))) by lia. cbn [kpow]. rewrite IHn. ring. }
      rewrite D. f_equal. destruct (e mod 2 =? 1) eqn:E1.
      * apply Z.eqb_eq in E1. rewrite E1. change (Z.to_nat 1) with 1%nat. cbn [kpow]. fold x. ring.
      * assert (e mod 2 = 0) as -> by lia. change (Z.to_nat 0) with O. cbn [kpow]. apply pe_one.
Qed.
End Mod.
End Eval.

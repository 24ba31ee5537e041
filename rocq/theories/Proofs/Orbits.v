(** map_orbits_of_permutation decomposes a permutation into its orbits. *)
From Coq Require Import Permutation.
From Verif Require Import Proofs.Tac Model.Analysis Spec.AnalysisSpec Proofs.WalshProg.
Local Open Scope Z_scope.

Section Perm.
Variable p : list Z.
Hypothesis P : is_permutation p.
Local Notation n := (length p).

Lemma step_range x : 0 <= x < Z.of_nat n -> 0 <= nth (Z.to_nat x) p 0 < Z.of_nat n.
Proof.
  intros H. apply (proj1 (Forall_forall _ _) (proj2 P)). apply nth_In. lia.
Qed.

Lemma image_range k x : 0 <= x < Z.of_nat n -> 0 <= image p k x < Z.of_nat n.
Proof. intros H. induction k; [assumption|]. cbn [image]. now apply step_range. Qed.

Lemma step_inj x y : 0 <= x < Z.of_nat n -> 0 <= y < Z.of_nat n ->
  nth (Z.to_nat x) p 0 = nth (Z.to_nat y) p 0 -> x = y.
Proof.
  intros Hx Hy E. assert (Z.to_nat x = Z.to_nat y); [|lia].
  apply (proj1 (NoDup_nth p 0) (proj1 P)); auto; lia.
Qed.

Lemma image_add a b x : image p (a + b) x = image p a (image p b x).
Proof. induction a; [reflexivity|]. cbn [image Nat.add]. now rewrite IHa. Qed.

Lemma image_inj k x y : 0 <= x < Z.of_nat n -> 0 <= y < Z.of_nat n -> image p k x = image p k y -> x = y.
Proof.
  intros Hx Hy. induction k; [auto|]. cbn [image]. intros E. apply IHk.
  apply step_inj; auto using image_range.
Qed.

Lemma image_mul K x m : image p K x = x -> image p (m * K) x = x.
Proof. intros H. induction m; [reflexivity|]. cbn [Nat.mul]. now rewrite image_add, IHm. Qed.

Lemma image_mod K x k : (0 < K)%nat -> image p K x = x -> image p k x = image p (k mod K) x.
Proof.
  intros HK H. rewrite (Nat.div_mod k K) at 1 by lia.
  rewrite Nat.add_comm, image_add. f_equal. rewrite Nat.mul_comm. now apply image_mul.
Qed.

Lemma least_nat (Q : nat -> Prop) (D : forall k, {Q k} + {~ Q k}) m :
  (exists k, (0 < k <= m)%nat /\ Q k /\ forall j, (0 < j < k)%nat -> ~ Q j) \/ (forall k, (0 < k <= m)%nat -> ~ Q k).
Proof.
  induction m as [|m [IH|IH]].
  - right. lia.
  - left. destruct IH as (k & H & R). exists k. split; [lia|assumption].
  - destruct (D (S m)) as [Y|N].
    + left. exists (S m). split; [lia|]. split; [assumption|]. intros j Hj. apply IH. lia.
    + right. intros k Hk. destruct (Nat.eq_dec k (S m)) as [->|]; [assumption|apply IH; lia].
Qed.

(** the period of an element that is the least of its orbit *)
Lemma period i : 0 <= i < Z.of_nat n -> (forall k, i <= image p k i) ->
  exists K, (0 < K)%nat /\ Z.of_nat K <= Z.of_nat n - i /\ image p K i = i /\
    forall k, (0 < k < K)%nat -> image p k i <> i.
Proof.
  intros Hi L. set (m := Z.to_nat (Z.of_nat n - i)).
  destruct (least_nat (fun k => image p k i = i) (fun k => Z.eq_dec _ _) m) as [(K & HK & E & M)|N].
  - exists K. repeat split; auto; lia.
  - exfalso.
    set (l := map (fun k => image p k i) (seq 0 (S m))).
    assert (ND : NoDup l).
    { apply (NoDup_nth l 0). unfold l. rewrite map_length, seq_length.
      assert (G : forall a b, (a < b <= m)%nat -> image p a i <> image p b i).
      { intros a b H E. apply (N (b - a)%nat); [lia|].
        apply (image_inj a); auto using image_range. rewrite <- image_add.
        replace (a + (b - a))%nat with b by lia. auto. }
      intros a b Ha Hb. rewrite !(nth_indep _ 0 (image p 0 i)) by (rewrite map_length, seq_length; lia).
      rewrite !map_nth with (d := O), !seq_nth by lia. cbn [Nat.add]. intros E.
      destruct (lt_eq_lt_dec a b) as [[H|H]|H]; [|assumption|]; exfalso.
      - apply (G a b); [lia|assumption].
      - apply (G b a); [lia|auto]. }
    assert (IN : incl l (map (fun k => i + Z.of_nat k) (seq 0 m))).
    { intros x Hx. unfold l in Hx. apply in_map_iff in Hx as (k & <- & Hk).
      pose proof (L k). pose proof (image_range k i Hi).
      apply in_map_iff. exists (Z.to_nat (image p k i - i)). split; [lia|]. apply in_seq. lia. }
    pose proof (NoDup_incl_length ND IN) as Q. unfold l in Q. rewrite !map_length, !seq_length in Q. lia.
Qed.

Definition mark (ks : list nat) (i : Z) (touched : list Z) : list Z :=
  fold_left (fun t k => set_nth (Z.to_nat (image p k i)) 1 t) ks touched.

Lemma mark_length ks i : forall t, length (mark ks i t) = length t.
Proof. induction ks as [|k ks IH]; intros t; [reflexivity|]. unfold mark in *. cbn [fold_left]. now rewrite IH, set_nth_length. Qed.

Lemma mark_nth ks i x : forall t, (x < length t)%nat ->
  nth x (mark ks i t) 0 = if existsb (fun k => (x =? Z.to_nat (image p k i))%nat) ks then 1 else nth x t 0.
Proof.
  induction ks as [|k ks IH]; intros t H; [reflexivity|].
  unfold mark in *. cbn [fold_left existsb]. rewrite IH by (now rewrite set_nth_length).
  rewrite nth_set_nth.
  destruct (existsb _ ks); [now rewrite orb_true_r|]. rewrite orb_false_r.
  destruct (Nat.eqb_spec x (Z.to_nat (image p k i))) as [E|E]; cbn [andb]; [|reflexivity].
  rewrite <- E. destruct (Nat.ltb_spec x (length t)); [reflexivity|lia].
Qed.

Lemma orbit_loop_ok i K : 0 <= i < Z.of_nat n -> (0 < K)%nat -> image p K i = i ->
  (forall k, (0 < k < K)%nat -> image p k i <> i) ->
  forall js k0 touched, (n <= length touched)%nat -> (k0 < K)%nat -> (K <= k0 + length js)%nat ->
  orbit_loop p i js touched (map (fun k => image p k i) (seq 0 k0)) (image p k0 i) =
  Ok (mark (seq k0 (K - k0)) i touched, map (fun k => image p k i) (seq 0 K)).
Proof.
  intros Hi HK E M. induction js as [|j js IH]; intros k0 touched T H1 H2; cbn [length] in H2; [lia|].
  pose proof (image_range k0 i Hi) as R. cbn [orbit_loop].
  rewrite py_set_ok by (unfold len; lia). cbn [bind].
  rewrite py_get_ok by (unfold len; lia). cbn [bind].
  change (nth (Z.to_nat (image p k0 i)) p 0) with (image p (S k0) i).
  replace (map (fun k => image p k i) (seq 0 k0) ++ [image p k0 i]) with (map (fun k => image p k i) (seq 0 (S k0)))
    by (rewrite seq_S, map_app; reflexivity).
  destruct (Z.eqb_spec (image p (S k0) i) i) as [Q|Q].
  - assert (K = S k0). { destruct (Nat.eq_dec K (S k0)); [assumption|]. exfalso. apply (M (S k0)); [lia|assumption]. }
    subst K. replace (S k0 - k0)%nat with 1%nat by lia. reflexivity.
  - assert (K <> S k0) by (intros ->; auto).
    rewrite IH; [|rewrite set_nth_length; lia|lia|lia].
    replace (K - k0)%nat with (S (K - S k0)) by lia. reflexivity.
Qed.

(** the state of the outer loop before round [i] *)
Record inv (i : Z) (touched : list Z) (d : list (Z * list Z)) : Prop := {
  inv_len : length touched = (n + n)%nat;
  inv_touched : forall x, 0 <= x < Z.of_nat n ->
    (nth (Z.to_nat x) touched 0 = 0 /\ forall k, i <= image p k x) \/
    (nth (Z.to_nat x) touched 0 = 1 /\ exists k, image p k x < i);
  inv_entries : forall k c, In (k, c) d ->
    0 <= k < i /\ k < Z.of_nat n /\ orbit_of p k c /\ (forall x, In x c -> k <= x);
  inv_nodup : NoDup (concat (map snd d));
  inv_all : forall x, In x (concat (map snd d)) <-> 0 <= x < Z.of_nat n /\ nth (Z.to_nat x) touched 0 = 1;
  inv_keys : NoDup (map fst d) }.

Lemma dict_set_new d k (c : list Z) : ~ In k (map fst d) -> dict_set d k c = d ++ [(k, c)].
Proof.
  induction d as [|[k' c'] d IH]; intros H; [reflexivity|]. cbn [dict_set app map fst In] in *.
  destruct (Z.eqb_spec k' k); [tauto|]. rewrite IH by tauto. reflexivity.
Qed.

Lemma in_orbit i K x : 0 <= i < Z.of_nat n -> (0 < K)%nat -> image p K i = i -> 0 <= x < Z.of_nat n ->
  (exists k, image p k x = i) <-> In x (map (fun k => image p k i) (seq 0 K)).
Proof.
  intros Hi HK E Hx. split.
  - intros (k & Hk). apply in_map_iff. exists ((k * K - k) mod K)%nat. split.
    + rewrite <- image_mod by assumption. apply (image_inj k); auto using image_range.
      rewrite <- image_add, Hk. replace (k + (k * K - k))%nat with (k * K)%nat by nia. apply image_mul. assumption.
    + apply in_seq. pose proof (Nat.mod_upper_bound (k * K - k) K). lia.
  - intros H. apply in_map_iff in H as (k & <- & Hk). apply in_seq in Hk. exists (K - k)%nat.
    rewrite <- image_add. replace (K - k + k)%nat with K by lia. assumption.
Qed.

Lemma inv_step i touched d : 0 <= i < Z.of_nat n -> inv i touched d ->
  exists touched' d',
    (let '(touched, gdict) := (touched, d) in
     do t <- py_get touched i;
     if t =? 0 then
       do r <- orbit_loop p i (py_range2 i (len p)) touched [] i;
       let '(touched, cycle) := r in
       do c0 <- py_get cycle 0;
       Ok (touched, dict_set gdict c0 cycle)
     else Ok (touched, gdict)) = Ok (touched', d') /\ inv (i + 1) touched' d'.
Proof.
  intros Hi I. destruct I as [Il It Ie In_ Ia Ik].
  rewrite py_get_ok by (unfold len; lia). cbn [bind].
  destruct (It i Hi) as [[Ti Li]|[Ti (k & Hk)]]; rewrite Ti.
  - cbn [Z.eqb]. destruct (period i Hi Li) as (K & K0 & K1 & K2 & K3).
    pose proof (orbit_loop_ok i K Hi K0 K2 K3 (py_range2 i (len p)) 0 touched ltac:(lia) K0) as O.
    cbn [seq map image] in O. rewrite Nat.sub_0_r in O.
    rewrite O by (unfold py_range2, len; rewrite map_length, seq_length; lia). clear O.
    cbn [bind].
    set (c := map (fun k => image p k i) (seq 0 K)).
    set (t' := mark (seq 0 K) i touched).
    assert (lc : length c = K) by (unfold c; now rewrite map_length, seq_length).
    rewrite py_get_ok by (unfold len; rewrite lc; lia). cbn [bind].
    replace (nth (Z.to_nat 0) c 0) with i by (unfold c; destruct K; [lia|reflexivity]).
    assert (Nk : ~ In i (map fst d)).
    { intros H. apply in_map_iff in H as ([k c'] & E & H). cbn [fst] in E. subst k. apply Ie in H. lia. }
    rewrite dict_set_new by assumption.
    exists t', (d ++ [(i, c)]). split; [reflexivity|].
    assert (Tm : forall x, 0 <= x < Z.of_nat n -> nth (Z.to_nat x) t' 0 = 1 /\ In x c \/
        nth (Z.to_nat x) t' 0 = nth (Z.to_nat x) touched 0 /\ ~ In x c).
    { intros x Hx. unfold t'. rewrite mark_nth by lia.
      destruct (existsb _ (seq 0 K)) eqn:EX.
      - left. split; [reflexivity|]. apply existsb_exists in EX as (k & Hk & E). apply Nat.eqb_eq in E.
        unfold c. apply in_map_iff. exists k. split; [|assumption].
        pose proof (image_range k i Hi). lia.
      - right. split; [reflexivity|]. intros H. unfold c in H. apply in_map_iff in H as (k & E & Hk).
        assert (existsb (fun k => (Z.to_nat x =? Z.to_nat (image p k i))%nat) (seq 0 K) = true); [|congruence].
        apply existsb_exists. exists k. split; [assumption|]. apply Nat.eqb_eq. now rewrite E. }
    assert (IO : forall x, 0 <= x < Z.of_nat n -> (exists k, image p k x = i) <-> In x c)
      by (intros x Hx; now apply in_orbit).
    assert (NDc : NoDup c).
    { apply (NoDup_nth c 0). rewrite lc.
      assert (G : forall a b, (a < b < K)%nat -> nth a c 0 <> nth b c 0).
      { intros a b H E. unfold c in E. rewrite !(nth_indep _ 0 (image p 0 i)) in E by (rewrite map_length, seq_length; lia).
        rewrite !map_nth with (d := O), !seq_nth in E by lia. cbn [Nat.add] in E.
        apply (K3 (b - a)%nat); [lia|]. apply (image_inj a); auto using image_range.
        rewrite <- image_add. replace (a + (b - a))%nat with b by lia. auto. }
      intros a b Ha Hb E. destruct (lt_eq_lt_dec a b) as [[H|H]|H]; [|assumption|]; exfalso.
      - apply (G a b); [lia|assumption].
      - apply (G b a); [lia|auto]. }
    assert (Rc : forall x, In x c -> 0 <= x < Z.of_nat n).
    { intros x Hx. unfold c in Hx. apply in_map_iff in Hx as (k & <- & _). now apply image_range. }
    constructor.
    + unfold t'. now rewrite mark_length.
    + intros x Hx. destruct (Tm x Hx) as [[T1 T2]|[T1 T2]].
      * right. split; [assumption|]. apply IO in T2 as (k & E); [|assumption]. exists k. lia.
      * rewrite T1. destruct (It x Hx) as [[T3 L]|[T3 (k & L)]].
        -- left. split; [assumption|]. intros k. specialize (L k).
           assert (image p k x <> i) by (intros E; apply T2, IO; [assumption|now exists k]). lia.
        -- right. split; [assumption|]. exists k. lia.
    + intros k c' H. apply in_app_or in H as [H|[H|[]]].
      * apply Ie in H. intuition lia.
      * injection H as <- <-. split; [lia|]. split; [lia|]. split.
        -- split; [intros E; rewrite E in lc; cbn in lc; lia|]. rewrite lc. split; [assumption|]. split; [assumption|].
           intros k Hk. unfold c. rewrite (nth_indep _ 0 (image p 0 i)) by (rewrite map_length, seq_length; lia).
           rewrite map_nth with (d := O), seq_nth by lia. reflexivity.
        -- intros x H. unfold c in H. apply in_map_iff in H as (k & <- & _). apply Li.
    + rewrite map_app, concat_app. cbn [map snd concat]. rewrite app_nil_r.
      apply (Permutation_NoDup (l := c ++ concat (map snd d))); [apply Permutation_app_comm|].
      assert (Dj : forall x, In x c -> ~ In x (concat (map snd d))).
      { intros x Hc Hd. apply Ia in Hd as [Hx Hd]. destruct (It x Hx) as [[Z _]|[_ (k & L)]]; [congruence|].
        unfold c in Hc. apply in_map_iff in Hc as (m & <- & _). rewrite <- image_add in L. specialize (Li (k + m)%nat). lia. }
      clear - NDc In_ Dj. revert NDc Dj. generalize c. intros c0. induction c0 as [|a c0 IH]; intros ND Dj; [assumption|].
      cbn [app]. inversion ND; subst. constructor.
      * intros H. apply in_app_or in H as [H|H]; [tauto|]. apply (Dj a); [now left|assumption].
      * apply IH; [assumption|]. intros x H. apply Dj. now right.
    + intros x. rewrite map_app, concat_app. cbn [map snd concat]. rewrite app_nil_r, in_app_iff, Ia. split.
      * intros [[Hx T]|Hc].
        -- split; [assumption|]. destruct (Tm x Hx) as [[T1 T2]|[T1 T2]]; [assumption|congruence].
        -- pose proof (Rc x Hc) as Hx. split; [assumption|]. destruct (Tm x Hx) as [[T1 T2]|[T1 T2]]; [assumption|tauto].
      * intros [Hx T]. destruct (Tm x Hx) as [[T1 T2]|[T1 T2]]; [now right|]. left. split; [assumption|congruence].
    + rewrite map_app. cbn [map fst].
      apply (Permutation_NoDup (l := i :: map fst d)); [apply Permutation_cons_append|]. now constructor.
  - cbn [Z.eqb]. exists touched, d. split; [reflexivity|]. constructor; auto.
    + intros x Hx. destruct (It x Hx) as [[T3 L]|[T3 (j & L)]].
      * left. split; [assumption|]. intros m. specialize (L m) as Lm.
        assert (image p m x <> i); [|lia]. intros E. specialize (L (k + m)%nat). rewrite image_add, E in L. lia.
      * right. split; [assumption|]. exists j. lia.
    + intros k' c H. apply Ie in H. intuition lia.
Qed.

Lemma py_for_inv {S} (I : Z -> S -> Prop) (body : S -> Z -> res S) m : forall a st,
  I (Z.of_nat a) st ->
  (forall k st, (a <= k < a + m)%nat -> I (Z.of_nat k) st -> exists st', body st (Z.of_nat k) = Ok st' /\ I (Z.of_nat k + 1) st') ->
  exists st', py_for (map Z.of_nat (seq a m)) body st = Ok st' /\ I (Z.of_nat (a + m)) st'.
Proof.
  induction m as [|m IH]; intros a st H B.
  - exists st. rewrite Nat.add_0_r. auto.
  - cbn [seq map py_for]. destruct (B a st ltac:(lia) H) as (st1 & -> & H1). cbn [bind].
    destruct (IH (Datatypes.S a) st1) as (st2 & E & H2).
    + rewrite Nat2Z.inj_succ. exact H1.
    + intros k s Hk. apply B. lia.
    + exists st2. split; [assumption|]. replace (a + Datatypes.S m)%nat with (Datatypes.S a + m)%nat by lia. assumption.
Qed.

Lemma zeros_nth {A} (l : list A) x : nth x (map (fun _ => 0) l) 0 = 0.
Proof. revert x; induction l as [|a l IH]; intros [|x]; cbn [map nth]; auto. Qed.

Lemma orbits_ok : exists d, map_orbits_of_permutation p = Ok d /\ NoDup (map fst d) /\
  (forall k c, In (k, c) d -> 0 <= k < Z.of_nat n /\ orbit_of p k c /\ (forall x, In x c -> k <= x)) /\
  Permutation (concat (map snd d)) (map Z.of_nat (seq 0 n)).
Proof.
  unfold map_orbits_of_permutation. rewrite py_range_len.
  set (z := map (fun _ : Z => 0) (map Z.of_nat (seq 0 n))).
  assert (lz : length z = n) by (unfold z; now rewrite !map_length, seq_length).
  assert (Iz : inv 0 (z ++ z) []).
  { constructor; cbn [map concat].
    - rewrite app_length. lia.
    - intros x Hx. left. split; [|intros k; apply (image_range k x Hx)].
      rewrite app_nth1 by lia. apply zeros_nth.
    - intros k c [].
    - constructor.
    - intros x. split; [intros []|]. intros [Hx T]. rewrite app_nth1 in T by lia. unfold z in T. rewrite zeros_nth in T. discriminate.
    - constructor. }
  match goal with |- context [py_for _ ?body _] => 
    destruct (py_for_inv (fun i st => inv i (fst st) (snd st)) body n 0 (z ++ z, []) Iz) as ([t d] & E & I) end.
  { intros k [t d] Hk I. destruct (inv_step (Z.of_nat k) t d ltac:(lia) I) as (t' & d' & E & I').
    exists (t', d'). split; [exact E|exact I']. }
  rewrite E. cbn [bind snd fst] in *. exists d. split; [reflexivity|].
  destruct I as [Il It Ie In_ Ia Ik]. cbn [fst snd Nat.add] in *. split; [assumption|]. split.
  - intros k c H. apply Ie in H. intuition lia.
  - apply NoDup_Permutation; [assumption| |].
    + apply FinFun.Injective_map_NoDup; [intros a b; apply Nat2Z.inj|apply seq_NoDup].
    + intros x. rewrite Ia, in_map_iff. split.
      * intros [Hx _]. exists (Z.to_nat x). split; [lia|apply in_seq; lia].
      * intros (k & <- & Hk). apply in_seq in Hk. split; [lia|].
        destruct (It (Z.of_nat k) ltac:(lia)) as [[_ L]|[T _]]; [|assumption]. specialize (L O). cbn [image] in L. lia.
Qed.
End Perm.

(** sboxNonlinearity, and a fast transform to evaluate it. *)
From Verif Require Import Proofs.Tac Model.Analysis Spec.AnalysisSpec Proofs.Walsh Proofs.WalshProg.
Local Open Scope Z_scope.

Lemma listcomp_ok f g xs : (forall x, In x xs -> f x = Ok (g x)) -> py_listcomp f xs = Ok (map g xs).
Proof.
  induction xs as [|x xs IH]; intros H; [reflexivity|]. cbn [py_listcomp map].
  rewrite (H x) by (now left). cbn [bind]. rewrite IH by (intros; apply H; now right). reflexivity.
Qed.

Lemma map_nth_seq (l : list Z) : map (fun i => nth i l 0) (seq 0 (length l)) = l.
Proof.
  induction l as [|a l IH]; [reflexivity|]. cbn [length seq map nth]. f_equal.
  rewrite <- seq_shift, map_map. exact IH.
Qed.

Lemma component_table n s c : length s = (2 ^ n)%nat -> truth_table n (component n s c).
Proof.
  intros L. split; [unfold component; now rewrite map_length|].
  apply Forall_forall. intros v H. apply in_map_iff in H as (x & <- & _). destruct (dot n c x); auto.
Qed.

Lemma component_prog n s c : length s = (2 ^ n)%nat -> 0 <= c < 2 ^ Z.of_nat n ->
  py_listcomp (fun i => do s0 <- py_get s i; binaryInnerProduct c s0) (py_range (len s)) = Ok (component n s c).
Proof.
  intros L H. rewrite (listcomp_ok _ (fun i => Z.b2z (dot n c (nth (Z.to_nat i) s 0)))).
  - f_equal. rewrite py_range_len, map_map. unfold component. rewrite <- (map_nth_seq s) at 2. rewrite map_map.
    apply map_ext. intros i. rewrite Nat2Z.id. reflexivity.
  - intros x Hx. rewrite py_range_len in Hx. apply in_map_iff in Hx as (k & <- & Hk). apply in_seq in Hk.
    rewrite py_get_ok by (unfold len; lia). cbn [bind]. apply ip_small. assumption.
Qed.

(** the program, with the nonlinearity of each component given by [g] *)
Lemma sbox_by n s g : (1 <= n)%nat -> length s = (2 ^ n)%nat ->
  (forall c, 0 < c < 2 ^ Z.of_nat n -> nonLinearity_x2 (component n s c) = Ok (g c)) ->
  sboxNonlinearity_x2 s =
    (do mn <- py_min (map Z.abs (map (fun k => g (Z.of_nat k + 1)) (seq 0 (2 ^ n - 1))));
     do mx <- py_max (map Z.abs (map (fun k => g (Z.of_nat k + 1)) (seq 0 (2 ^ n - 1))));
     Ok (mn, mx)).
Proof.
  intros N L H. unfold sboxNonlinearity_x2.
  replace (len s) with (2 ^ Z.of_nat n) at 1 by (unfold len; rewrite L, pow2_nat; reflexivity).
  rewrite log2n_pow. cbn [bind].
  rewrite py_range_len, repeat_length.
  replace (Z.to_nat (2 ^ Z.of_nat n - 1)) with (2 ^ n - 1)%nat by (rewrite <- pow2_nat; lia).
  change (repeat 0 (2 ^ n - 1)) with ([] ++ repeat 0 (2 ^ n - 1)).
  rewrite (py_for_fill (fun k => g (Z.of_nat k + 1)) _ 0 (2 ^ n - 1) []).
  - reflexivity.
  - intros p q x k Hp Hk Hx Hl. cbn [length Nat.add] in *.
    assert (0 < Z.of_nat k + 1 < 2 ^ Z.of_nat n) by (rewrite <- pow2_nat; lia).
    rewrite (component_prog n) by (auto; lia). cbn [bind]. rewrite H by assumption. cbn [bind].
    rewrite py_set_ok by (unfold len; lia). rewrite Nat2Z.id, <- Hp, set_nth_app. reflexivity.
Qed.

Lemma distance_nonneg n t d : affine_distance n t d -> 0 <= d.
Proof. intros [(c & w & _ & <-) _]. unfold distance, count_below. lia. Qed.

Lemma sbox_ok n s : (1 <= n)%nat -> length s = (2 ^ n)%nat ->
  exists lo hi, sboxNonlinearity_x2 s = Ok (2 * lo, 2 * hi) /\ nonlinearity_range n s lo hi.
Proof.
  intros N L.
  set (g := fun c => match nonLinearity_x2 (component n s c) with Ok v => v | Raise _ => 0 end).
  assert (G : forall c, exists d, nonLinearity_x2 (component n s c) = Ok (2 * d) /\
     affine_distance n (component n s c) d).
  { intros c. apply nl_ok; [assumption|now apply component_table]. }
  assert (Gg : forall c, nonLinearity_x2 (component n s c) = Ok (g c)).
  { intros c. unfold g. destruct (G c) as (d & -> & _). reflexivity. }
  assert (Gd : forall c, exists d, g c = 2 * d /\ affine_distance n (component n s c) d).
  { intros c. destruct (G c) as (d & E & A). exists d. split; [|assumption]. rewrite Gg in E. now injection E. }
  rewrite (sbox_by n s g N L) by (intros; apply Gg).
  set (l := map Z.abs (map (fun k => g (Z.of_nat k + 1)) (seq 0 (2 ^ n - 1)))).
  assert (ln : l <> []).
  { unfold l. pose proof (pow2_pos (n - 1)). replace n with (S (n - 1)) by lia. cbn [Nat.pow].
    destruct (2 * 2 ^ (n - 1) - 1)%nat eqn:E; [lia|discriminate]. }
  assert (In1 : forall y, In y l -> exists c d, 0 < c < 2 ^ Z.of_nat n /\ affine_distance n (component n s c) d /\ y = 2 * d).
  { intros y Hy. unfold l in Hy. rewrite map_map in Hy. apply in_map_iff in Hy as (k & <- & Hk). apply in_seq in Hk.
    destruct (Gd (Z.of_nat k + 1)) as (d & E & A). exists (Z.of_nat k + 1), d.
    pose proof (distance_nonneg _ _ _ A). split; [rewrite <- pow2_nat; lia|]. split; [assumption|lia]. }
  assert (In2 : forall c d, 0 < c < 2 ^ Z.of_nat n -> affine_distance n (component n s c) d -> In (2 * d) l).
  { intros c d Hc A. unfold l. rewrite map_map. apply in_map_iff. exists (Z.to_nat (c - 1)).
    rewrite <- pow2_nat in Hc. split; [|apply in_seq; lia].
    replace (Z.of_nat (Z.to_nat (c - 1)) + 1) with c by lia.
    destruct (Gd c) as (d' & E & A'). rewrite E, (affine_distance_unique _ _ _ _ A' A).
    pose proof (distance_nonneg _ _ _ A). lia. }
  destruct (py_min_ok l ln) as (mn & -> & I1 & U1). destruct (py_max_ok l ln) as (mx & -> & I2 & U2).
  cbn [bind]. destruct (In1 _ I1) as (c1 & lo & Hc1 & A1 & ->). destruct (In1 _ I2) as (c2 & hi & Hc2 & A2 & ->).
  exists lo, hi. split; [reflexivity|]. split; [now exists c1|]. split; [now exists c2|].
  intros c d Hc A. pose proof (U1 _ (In2 c d Hc A)). pose proof (U2 _ (In2 c d Hc A)). lia.
Qed.

(** ** fast transform *)
Fixpoint unzip (l : list Z) : list Z * list Z :=
  match l with
  | a :: b :: l' => let (e, o) := unzip l' in (a :: e, b :: o)
  | _ => ([], [])
  end.
Fixpoint zipl (a b : list Z) : list Z :=
  match a, b with x :: a', y :: b' => x :: y :: zipl a' b' | _, _ => [] end.
Fixpoint map2 (f : Z -> Z -> Z) (a b : list Z) : list Z :=
  match a, b with x :: a', y :: b' => f x y :: map2 f a' b' | _, _ => [] end.
Fixpoint fwht (n : nat) (l : list Z) : list Z :=
  match n with
  | O => l
  | S n' => let (e, o) := unzip l in zipl (fwht n' (map2 Z.add e o)) (fwht n' (map2 Z.sub e o))
  end.

Definition tabf (N : nat) (f : Z -> Z) : list Z := map (fun k => f (Z.of_nat k)) (seq 0 N).

Lemma tabf_ext N f g : (forall x, 0 <= x < Z.of_nat N -> f x = g x) -> tabf N f = tabf N g.
Proof. intros H. unfold tabf. apply map_ext_in. intros k Hk. apply in_seq in Hk. apply H. lia. Qed.

Lemma tabf_S N f : tabf (S N) f = f 0 :: tabf N (fun x => f (x + 1)).
Proof.
  unfold tabf. cbn [seq map]. change (Z.of_nat 0) with 0. f_equal. rewrite <- seq_shift, map_map.
  apply map_ext. intros k. f_equal. lia.
Qed.

Lemma unzip_tabf N : forall f, unzip (tabf (2 * N) f) = (tabf N (fun x => f (2 * x)), tabf N (fun x => f (2 * x + 1))).
Proof.
  induction N as [|N IH]; intros f; [reflexivity|].
  replace (2 * S N)%nat with (S (S (2 * N))) by lia. rewrite !tabf_S. cbn [unzip]. rewrite IH.
  f_equal; f_equal; apply tabf_ext; intros; f_equal; lia.
Qed.

Lemma map2_tabf op N : forall f g, map2 op (tabf N f) (tabf N g) = tabf N (fun x => op (f x) (g x)).
Proof. induction N as [|N IH]; intros f g; [reflexivity|]. rewrite !tabf_S. cbn [map2]. now rewrite IH. Qed.

Lemma zip_tabf N : forall f g, zipl (tabf N f) (tabf N g) =
  tabf (2 * N) (fun x => if Z.odd x then g (x / 2) else f (x / 2)).
Proof.
  induction N as [|N IH]; intros f g; [reflexivity|].
  replace (2 * S N)%nat with (S (S (2 * N))) by lia. rewrite !tabf_S. cbn [zipl]. rewrite IH.
  change (Z.odd 0) with false. change (Z.odd (0 + 1)) with true. change (0 / 2) with 0. change ((0 + 1) / 2) with 0.
  cbv iota. do 2 f_equal. apply tabf_ext. intros x Hx.
  replace (x + 1 + 1) with (x + 2 * 1) by lia. rewrite Z.odd_add_mul_2.
  replace ((x + 2 * 1) / 2) with (x / 2 + 1) by lia. reflexivity.
Qed.

Lemma fwht_ok n : forall f, fwht n (tabf (2 ^ n) f) =
  tabf (2 ^ n) (fun w => sum_below (2 ^ n) (fun x => f x * sign (dot n w x))).
Proof.
  induction n as [|n IH]; intros f.
  - unfold tabf, sum_below, fwht. cbn [seq map fold_right Nat.pow]. change (Z.of_nat 0) with 0.
    cbn [dot sign]. f_equal. lia.
  - change (2 ^ S n)%nat with (2 * 2 ^ n)%nat. cbn [fwht]. rewrite unzip_tabf, !map2_tabf, !IH, zip_tabf.
    apply tabf_ext. intros w Hw. rewrite sum_double.
    assert (E : forall b, Z.odd w = b -> forall x, f (2 * x) * sign (dot (S n) w (2 * x)) + f (2 * x + 1) * sign (dot (S n) w (2 * x + 1))
      = (f (2 * x) + sign b * f (2 * x + 1)) * sign (dot n (w / 2) x)).
    { intros b Hb x. rewrite !dot_half, Hb.
      replace (2 * x / 2) with x by lia. replace ((2 * x + 1) / 2) with x by lia.
      replace (Z.odd (2 * x)) with false by (rewrite Z.odd_mul; reflexivity).
      replace (Z.odd (2 * x + 1)) with true by (rewrite Z.odd_add, Z.odd_mul; reflexivity).
      rewrite andb_false_r, andb_true_r, !sign_xorb. cbn [sign]. ring. }
    destruct (Z.odd w) eqn:O; apply sum_ext; intros x Hx; rewrite (E _ eq_refl); cbn [sign]; f_equal; lia.
Qed.

Lemma walsh_fast n t : truth_table n t ->
  map (fun w => walsh n t (Z.of_nat w)) (seq 0 (2 ^ n)) = fwht n (map (fun v => if v =? 1 then -1 else 1) t).
Proof.
  intros [L F].
  replace (map (fun v => if v =? 1 then -1 else 1) t) with (tabf (2 ^ n) (fun x => sign (value t x))).
  - rewrite fwht_ok. reflexivity.
  - unfold tabf. rewrite <- (map_nth_seq t) at 1. rewrite map_map, L. apply map_ext. intros k. unfold value. rewrite Nat2Z.id. reflexivity.
Qed.

Definition fast_max (l : list Z) : Z := match py_max (map Z.abs l) with Ok m => m | Raise _ => 0 end.
Definition fast_nl (n : nat) (s : list Z) (c : Z) : Z :=
  2 * (2 ^ Z.of_nat n / 2) - fast_max (fwht n (map (fun v => if dot n c v then -1 else 1) s)).

Lemma fast_nl_ok n s c : length s = (2 ^ n)%nat ->
  nonLinearity_x2 (component n s c) = Ok (fast_nl n s c).
Proof.
  intros L. pose proof (component_table n s c L) as T.
  unfold nonLinearity_x2. rewrite (walsh_ok n _ T), (walsh_fast n _ T). cbn [bind].
  unfold fast_nl, fast_max.
  replace (map (fun v => if v =? 1 then -1 else 1) (component n s c)) with (map (fun v => if dot n c v then -1 else 1) s).
  - unfold len. rewrite (proj1 T), pow2_nat.
    destruct (py_max_ok (map Z.abs (fwht n (map (fun v => if dot n c v then -1 else 1) s)))) as (m & -> & _).
    + intros E. apply map_eq_nil in E.
      assert (Q : length (fwht n (map (fun v => if v =? 1 then -1 else 1) (component n s c))) = (2 ^ n)%nat).
      { rewrite <- (walsh_fast n _ T), map_length, seq_length. reflexivity. }
      replace (map (fun v => if v =? 1 then -1 else 1) (component n s c)) with (map (fun v => if dot n c v then -1 else 1) s) in Q.
      * rewrite E in Q. cbn in Q. pose proof (pow2_pos n). lia.
      * unfold component. rewrite map_map. apply map_ext. intros v. now destruct (dot n c v).
    + reflexivity.
  - unfold component. rewrite map_map. apply map_ext. intros v. now destruct (dot n c v).
Qed.

Definition fast_sbox (n : nat) (s : list Z) : res (Z * Z) :=
  let l := map Z.abs (map (fun k => fast_nl n s (Z.of_nat k + 1)) (seq 0 (2 ^ n - 1))) in
  do mn <- py_min l; do mx <- py_max l; Ok (mn, mx).

Lemma fast_sbox_ok n s : (1 <= n)%nat -> length s = (2 ^ n)%nat -> sboxNonlinearity_x2 s = fast_sbox n s.
Proof. intros N L. apply (sbox_by n s (fast_nl n s) N L). intros. now apply fast_nl_ok. Qed.

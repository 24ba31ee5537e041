(** The Walsh programs compute the Walsh transform. *)
From Verif Require Import Proofs.Tac Model.Analysis Spec.AnalysisSpec Proofs.Walsh.
Local Open Scope Z_scope.

(** ** binaryInnerProduct *)
Lemma land_1 x : Z.land x 1 = Z.b2z (Z.odd x).
Proof. change 1 with (Z.ones 1). rewrite Z.land_ones by lia. change (2 ^ 1) with 2. rewrite Zmod_odd. now destruct (Z.odd x). Qed.

Lemma shiftr_1 x : Z.shiftr x 1 = x / 2.
Proof. rewrite Z.shiftr_div_pow2 by lia. reflexivity. Qed.

Lemma lxor_b2z a b : Z.lxor (Z.b2z a) (Z.b2z b) = Z.b2z (xorb a b).
Proof. destruct a, b; reflexivity. Qed.

Lemma dot_zero n a : dot n 0 a = false.
Proof. induction n; [reflexivity|]. cbn [dot]. now rewrite IHn, Z.testbit_0_l. Qed.

Lemma odd_m1 n : Z.odd (-1) = true /\ -1 / 2 = -1 /\ (n = n :> nat).
Proof. repeat split. Qed.

Lemma ip_loop_ok n : forall fuel ip ab, ab < 2 ^ Z.of_nat n -> (n < fuel)%nat ->
  ip_loop fuel (Z.b2z ip) ab = Ok (Z.b2z (xorb ip (if ab <? 0 then false else dot n ab (-1)))).
Proof.
  induction n as [|n IH]; intros [|fuel] ip ab H F; try lia; cbn [ip_loop].
  - change (2 ^ Z.of_nat 0) with 1 in H. destruct (Z.ltb_spec 0 ab); [lia|].
    destruct (ab <? 0); cbn [dot]; rewrite xorb_false_r; reflexivity.
  - destruct (Z.ltb_spec 0 ab) as [P|P].
    + rewrite land_1, shiftr_1, lxor_b2z. rewrite Nat2Z.inj_succ, Z.pow_succ_r in H by lia.
      rewrite IH by lia.
      destruct (Z.ltb_spec ab 0); [lia|]. destruct (Z.ltb_spec (ab / 2) 0); [lia|].
      rewrite dot_half. change (-1 / 2) with (-1). change (Z.odd (-1)) with true. rewrite andb_true_r.
      do 2 f_equal. destruct ip, (Z.odd ab), (dot n (ab / 2) (-1)); reflexivity.
    + destruct (Z.ltb_spec ab 0).
      * now rewrite xorb_false_r.
      * replace ab with 0 by lia. rewrite dot_zero, xorb_false_r. reflexivity.
Qed.

Lemma log2_bound x : x < 2 ^ (Z.log2 x + 1).
Proof.
  destruct (Z.ltb_spec 0 x) as [P|P].
  - replace (Z.log2 x + 1) with (Z.succ (Z.log2 x)) by lia. apply Z.log2_spec. assumption.
  - pose proof (Z.log2_nonneg x). pose proof (Z.pow_pos_nonneg 2 (Z.log2 x + 1) ltac:(lia) ltac:(lia)). lia.
Qed.

Lemma dot_more n m a b : 0 <= Z.land a b < 2 ^ Z.of_nat n -> (n <= m)%nat -> dot m a b = dot n a b.
Proof.
  intros H L. induction L as [|m L IH]; [reflexivity|].
  cbn [dot]. rewrite IH, <- Z.land_spec.
  destruct (Z.eq_dec (Z.land a b) 0) as [->|N]; [rewrite Z.testbit_0_l; apply xorb_false_r|].
  rewrite Z.bits_above_log2; [apply xorb_false_r|lia|].
  apply Z.lt_le_trans with (Z.of_nat n); [apply Z.log2_lt_pow2; lia|lia].
Qed.

Lemma ip_ok n a b : Z.land a b < 2 ^ Z.of_nat n ->
  binaryInnerProduct a b = Ok (Z.b2z (if Z.land a b <? 0 then false else dot n a b)).
Proof.
  intros H. unfold binaryInnerProduct.
  pose proof (Z.log2_nonneg (Z.land a b)) as L.
  pose proof (ip_loop_ok (Z.to_nat (Z.log2 (Z.land a b) + 1)) (Z.to_nat (Z.log2 (Z.land a b) + 2)) false (Z.land a b)) as I.
  cbn [Z.b2z] in I. rewrite I; clear I.
  - rewrite xorb_false_l. destruct (Z.ltb_spec (Z.land a b) 0) as [P|P]; [reflexivity|].
    do 2 f_equal.
    rewrite (dot_land _ (Z.land a b) (-1) a b) by (now rewrite Z.land_m1_r).
    set (k := Z.to_nat (Z.log2 (Z.land a b) + 1)).
    assert (Hk : 0 <= Z.land a b < 2 ^ Z.of_nat k).
    { split; [assumption|]. unfold k. rewrite Z2Nat.id by lia. apply log2_bound. }
    destruct (le_lt_dec k n) as [Q|Q].
    + symmetry. now apply dot_more.
    + apply dot_more; [now split|lia].
  - rewrite Z2Nat.id by lia. apply log2_bound.
  - lia.
Qed.

Lemma land_lt_l a b n : 0 <= a < 2 ^ Z.of_nat n -> 0 <= Z.land a b < 2 ^ Z.of_nat n.
Proof.
  intros H. split; [apply Z.land_nonneg; lia|].
  destruct (Z.eq_dec (Z.land a b) 0) as [E|N]; [lia|].
  assert (0 < Z.land a b) by (pose proof (proj2 (Z.land_nonneg a b)); lia).
  apply Z.log2_lt_pow2; [assumption|].
  assert (E : Z.land a b = Z.land (Z.land a b) a).
  { rewrite (Z.land_comm a b), <- Z.land_assoc, Z.land_diag. reflexivity. }
  destruct (Z.eq_dec a 0) as [->|]; [now rewrite Z.land_0_l in N|].
  apply Z.le_lt_trans with (Z.log2 a); [|apply Z.log2_lt_pow2; lia].
  destruct (Z.le_gt_cases (Z.log2 (Z.land a b)) (Z.log2 a)) as [|G]; [assumption|exfalso].
  assert (B : Z.testbit (Z.land a b) (Z.log2 (Z.land a b)) = true) by (apply Z.bit_log2; assumption).
  rewrite E in B at 1. rewrite Z.land_spec in B.
  rewrite (Z.bits_above_log2 a) in B by lia. rewrite andb_false_r in B. discriminate.
Qed.

Lemma ip_small n a b : 0 <= a < 2 ^ Z.of_nat n -> binaryInnerProduct a b = Ok (Z.b2z (dot n a b)).
Proof.
  intros H. pose proof (land_lt_l a b n H) as L. rewrite (ip_ok n) by lia.
  destruct (Z.ltb_spec (Z.land a b) 0); [lia|reflexivity].
Qed.

(** ** log2n *)
Lemma log2n_loop_ok n : forall fuel x k, (n < fuel)%nat ->
  (n = O /\ x <= 0 \/ 2 ^ (Z.of_nat n - 1) <= x < 2 ^ Z.of_nat n /\ (0 < n)%nat) ->
  log2n_loop fuel x k = Ok (k + Z.of_nat n).
Proof.
  induction n as [|n IH]; intros [|fuel] x k F H; try lia; cbn [log2n_loop].
  - destruct (Z.ltb_spec 0 x); [lia|]. f_equal. lia.
  - destruct H as [H|[H _]]; [lia|].
    assert (0 < 2 ^ (Z.of_nat (S n) - 1)) by (apply Z.pow_pos_nonneg; lia).
    destruct (Z.ltb_spec 0 x); [|lia]. rewrite shiftr_1. rewrite IH; [f_equal; lia|lia|].
    rewrite Nat2Z.inj_succ, Z.pow_succ_r in H by lia. replace (Z.succ (Z.of_nat n) - 1) with (Z.of_nat n) in * by lia.
    destruct n as [|n'].
    + left. change (2 ^ Z.of_nat 0) with 1 in *. lia.
    + right. rewrite Nat2Z.inj_succ in *.
      replace (Z.succ (Z.of_nat n') - 1) with (Z.of_nat n') by lia.
      rewrite Z.pow_succ_r in * by lia. lia.
Qed.

Lemma log2n_value l : log2n l =
  if (0 <? l) && (2 ^ Z.log2 l =? l) then Ok (Z.log2 l) else Raise AssertionError.
Proof.
  unfold log2n. pose proof (Z.log2_nonneg l) as N.
  destruct (Z.ltb_spec 0 l) as [P|P].
  - rewrite (log2n_loop_ok (Z.to_nat (Z.log2 l + 1))); [|lia|].
    + cbn [bind andb]. rewrite Z2Nat.id by lia. replace (0 + (Z.log2 l + 1) - 1) with (Z.log2 l) by lia.
      destruct (Z.ltb_spec (Z.log2 l) 0); [lia|]. now destruct (2 ^ Z.log2 l =? l).
    + right. rewrite Z2Nat.id by lia. replace (Z.log2 l + 1 - 1) with (Z.log2 l) by lia.
      split; [|lia]. apply Z.log2_spec. assumption.
  - rewrite (log2n_loop_ok 0); [reflexivity|lia|left; lia].
Qed.

Lemma log2n_pow n : log2n (2 ^ Z.of_nat n) = Ok (Z.of_nat n).
Proof.
  rewrite log2n_value, Z.log2_pow2 by lia.
  pose proof (Z.pow_pos_nonneg 2 (Z.of_nat n) ltac:(lia) ltac:(lia)).
  destruct (Z.ltb_spec 0 (2 ^ Z.of_nat n)); [|lia]. now rewrite Z.eqb_refl.
Qed.

(** ** lists *)
Lemma py_get_ok l k : 0 <= k < len l -> py_get l k = Ok (nth (Z.to_nat k) l 0).
Proof.
  intros H. unfold py_get, py_pos. destruct (Z.leb_spec 0 k), (Z.ltb_spec k (len l)); try lia. reflexivity.
Qed.
Lemma py_set_ok l k v : 0 <= k < len l -> py_set l k v = Ok (set_nth (Z.to_nat k) v l).
Proof.
  intros H. unfold py_set, py_pos. destruct (Z.leb_spec 0 k), (Z.ltb_spec k (len l)); try lia. reflexivity.
Qed.

Lemma set_nth_length {A} i (v : A) l : length (set_nth i v l) = length l.
Proof. revert i; induction l as [|x l IH]; intros [|i]; cbn [set_nth length]; auto. Qed.

Lemma nth_set_nth {A} i j (v : A) l d : nth j (set_nth i v l) d =
  if (j =? i)%nat && (i <? length l)%nat then v else nth j l d.
Proof.
  revert i j; induction l as [|x l IH]; intros i j.
  - destruct i; cbn [set_nth length]; rewrite (proj2 (Nat.ltb_ge _ 0)) by lia; rewrite andb_false_r; reflexivity.
  - destruct i as [|i], j as [|j]; cbn [set_nth nth length]; try reflexivity. rewrite IH. reflexivity.
Qed.

Lemma set_nth_twice {A} i (v w : A) l : set_nth i v (set_nth i w l) = set_nth i v l.
Proof. revert i; induction l as [|x l IH]; intros [|i]; cbn [set_nth]; congruence. Qed.

Lemma set_nth_app {A} (p : list A) v x q : set_nth (length p) v (p ++ x :: q) = p ++ v :: q.
Proof. induction p; cbn [length set_nth app]; congruence. Qed.

Lemma set_nth_same i l : (i < length l)%nat -> set_nth i (nth i l 0) l = l.
Proof. revert i; induction l as [|x l IH]; intros [|i] H; cbn [set_nth nth length] in *; try lia; f_equal. apply IH. lia. Qed.

Lemma py_range_len {A} (l : list A) : py_range (len l) = map Z.of_nat (seq 0 (length l)).
Proof. unfold py_range, len. now rewrite Nat2Z.id. Qed.

(** loops that write one element after the other *)
Lemma py_for_fill {A} (f : nat -> A) (body : list A -> Z -> res (list A)) (d : A) m : forall p,
  (forall p' q x k, length p' = k -> (k < length p + m)%nat -> x = d -> length (p' ++ x :: q) = (length p + m)%nat ->
     body (p' ++ x :: q) (Z.of_nat k) = Ok (p' ++ f k :: q)) ->
  py_for (map Z.of_nat (seq (length p) m)) body (p ++ repeat d m) =
  Ok (p ++ map f (seq (length p) m)).
Proof.
  induction m as [|m IH]; intros p H; [reflexivity|].
  cbn [seq map repeat py_for]. rewrite H; cbn [bind]; auto; [|lia|].
  2:{ rewrite app_length; cbn [length]. rewrite repeat_length. lia. }
  replace (p ++ f (length p) :: repeat d m) with ((p ++ [f (length p)]) ++ repeat d m) by (now rewrite <- app_assoc).
  replace (S (length p)) with (length (p ++ [f (length p)])) by (rewrite app_length; cbn; lia).
  rewrite IH.
  - rewrite <- app_assoc. reflexivity.
  - intros p' q x k Hp Hk Hx Hl. rewrite (app_length p) in Hk, Hl. cbn [length] in Hk, Hl. apply H; auto; clear - Hk Hl; lia.
Qed.

(** ** walshTransform *)
Lemma minus_one_pow_b2z b : minus_one_pow (Z.b2z b) = sign b.
Proof. destruct b; reflexivity. Qed.

Lemma table_value t x : Forall (fun v => v = 0 \/ v = 1) t -> (x < length t)%nat ->
  nth x t 0 = Z.b2z (value t (Z.of_nat x)).
Proof.
  intros F L. unfold value. rewrite Nat2Z.id.
  pose proof (proj1 (Forall_forall _ _) F (nth x t 0) (nth_In _ _ L)) as [-> | ->]; reflexivity.
Qed.

Lemma walsh_inner n t w : truth_table n t -> (w < 2 ^ n)%nat -> forall m k p x q,
  length p = w -> length (p ++ x :: q) = (2 ^ n)%nat -> (k + m <= 2 ^ n)%nat ->
  py_for (map Z.of_nat (seq k m))
    (fun wt x => do old <- py_get wt (Z.of_nat w); do tx <- py_get t x; do ip <- binaryInnerProduct (Z.of_nat w) x;
       py_set wt (Z.of_nat w) (old + minus_one_pow (Z.lxor tx ip))) (p ++ x :: q)
  = Ok (p ++ (x + lsum (map (fun y => sign (value t (Z.of_nat y)) * sign (dot n (Z.of_nat w) (Z.of_nat y))) (seq k m))) :: q).
Proof.
  intros [Tl Tb] W. induction m as [|m IH]; intros k p x q Hp Hl Hk.
  - cbn. do 2 f_equal. f_equal. lia.
  - cbn [seq map py_for].
    rewrite py_get_ok by (unfold len; lia). cbn [bind].
    rewrite py_get_ok by (unfold len; lia). cbn [bind].
    rewrite (ip_small n) by (rewrite <- pow2_nat; lia). cbn [bind].
    rewrite py_set_ok by (unfold len; lia). cbn [bind].
    rewrite !Nat2Z.id. rewrite (table_value t k) by (auto; lia). rewrite lxor_b2z, minus_one_pow_b2z, sign_xorb.
    rewrite <- Hp. rewrite nth_middle, set_nth_app. rewrite Hp. rewrite IH; auto; [|rewrite app_length in Hl |- *; cbn [length] in Hl |- *; lia|lia].
    do 3 f_equal. unfold lsum. cbn [fold_right map]. lia.
Qed.

Lemma walsh_ok n t : truth_table n t ->
  walshTransform t = Ok (map (fun w => walsh n t (Z.of_nat w)) (seq 0 (2 ^ n))).
Proof.
  intros T. pose proof T as [Tl Tb]. unfold walshTransform.
  replace (len t) with (2 ^ Z.of_nat n) at 1 by (unfold len; rewrite Tl, pow2_nat; reflexivity).
  rewrite log2n_pow. cbn [bind]. rewrite py_range_len, Tl.
  change (repeat 0 (2 ^ n)) with ([] ++ repeat 0 (2 ^ n)).
  rewrite (py_for_fill (fun w => walsh n t (Z.of_nat w)) _ 0 (2 ^ n) []).
  - reflexivity.
  - intros p q x k Hp Hk Hx Hl. cbn [length Nat.add] in *. subst x.
    rewrite walsh_inner with (n := n); auto. 
Qed.

(** ** nonLinearity *)
Lemma fold_max l : forall x, x <= fold_left Z.max l x /\ (forall y, In y l -> y <= fold_left Z.max l x) /\
  (fold_left Z.max l x = x \/ In (fold_left Z.max l x) l).
Proof.
  induction l as [|a l IH]; intros x; cbn [fold_left]; [split; [lia|split; [intros y []|now left]]|].
  destruct (IH (Z.max x a)) as (H1 & H2 & H3). split; [lia|]. split.
  - intros y [->|Hy]; [lia|auto].
  - destruct H3 as [H3|H3]; [|right; now right].
    rewrite H3. destruct (Z.max_spec x a) as [[_ ->]|[_ ->]]; [right; now left|now left].
Qed.
Lemma fold_min l : forall x, fold_left Z.min l x <= x /\ (forall y, In y l -> fold_left Z.min l x <= y) /\
  (fold_left Z.min l x = x \/ In (fold_left Z.min l x) l).
Proof.
  induction l as [|a l IH]; intros x; cbn [fold_left]; [split; [lia|split; [intros y []|now left]]|].
  destruct (IH (Z.min x a)) as (H1 & H2 & H3). split; [lia|]. split.
  - intros y [->|Hy]; [lia|auto].
  - destruct H3 as [H3|H3]; [|right; now right].
    rewrite H3. destruct (Z.min_spec x a) as [[_ ->]|[_ ->]]; [now left|right; now left].
Qed.

Lemma py_max_ok l : l <> [] -> exists m, py_max l = Ok m /\ In m l /\ forall y, In y l -> y <= m.
Proof.
  destruct l as [|x l]; [congruence|intros _]. cbn [py_max].
  destruct (fold_max l x) as (H1 & H2 & H3). eexists; split; [reflexivity|]. split.
  - destruct H3 as [H3|H3]; [left; now rewrite H3|now right].
  - intros y [<-|Hy]; auto.
Qed.
Lemma py_min_ok l : l <> [] -> exists m, py_min l = Ok m /\ In m l /\ forall y, In y l -> m <= y.
Proof.
  destruct l as [|x l]; [congruence|intros _]. cbn [py_min].
  destruct (fold_min l x) as (H1 & H2 & H3). eexists; split; [reflexivity|]. split.
  - destruct H3 as [H3|H3]; [left; now rewrite H3|now right].
  - intros y [<-|Hy]; auto.
Qed.

Lemma pow2_pos n : (0 < 2 ^ n)%nat.
Proof. induction n; cbn [Nat.pow]; lia. Qed.

Lemma nl_max n t : truth_table n t -> exists m,
  nonLinearity_x2 t = Ok (2 * (2 ^ Z.of_nat n / 2) - m) /\
  (exists w, 0 <= w < 2 ^ Z.of_nat n /\ Z.abs (walsh n t w) = m) /\
  (forall w, 0 <= w < 2 ^ Z.of_nat n -> Z.abs (walsh n t w) <= m).
Proof.
  intros T. unfold nonLinearity_x2. rewrite (walsh_ok n t T). cbn [bind].
  destruct (py_max_ok (map Z.abs (map (fun w => walsh n t (Z.of_nat w)) (seq 0 (2 ^ n))))) as (m & E & I & U).
  { pose proof (pow2_pos n). destruct (2 ^ n)%nat; [lia|discriminate]. }
  exists m. rewrite E. cbn [bind]. split; [unfold len; rewrite (proj1 T), pow2_nat; reflexivity|]. split.
  - rewrite map_map in I. apply in_map_iff in I as (k & <- & Hk). apply in_seq in Hk.
    exists (Z.of_nat k). rewrite <- pow2_nat. split; [lia|reflexivity].
  - intros w Hw. apply U. rewrite map_map. apply in_map_iff. exists (Z.to_nat w).
    rewrite <- pow2_nat in Hw. rewrite Z2Nat.id by lia. split; [reflexivity|]. apply in_seq. lia.
Qed.

Lemma nl_ok n t : (1 <= n)%nat -> truth_table n t ->
  exists d, nonLinearity_x2 t = Ok (2 * d) /\ affine_distance n t d.
Proof.
  intros N T. destruct (nl_max n t T) as (m & E & X & U).
  destruct (distance_min n t m X U) as (d & Ed & Ad). exists d. split; [|assumption].
  rewrite E, <- Ed. do 2 f_equal.
  destruct n as [|n]; [lia|]. rewrite Nat2Z.inj_succ, Z.pow_succ_r by lia. lia.
Qed.

Lemma nl_zero v : v = 0 \/ v = 1 -> nonLinearity_x2 [v] = Ok (-1).
Proof. intros [-> | ->]; vm_compute; reflexivity. Qed.

(** the bound that follows from Parseval's identity *)
Lemma nl_bound n t d : affine_distance n t d -> 2 ^ Z.of_nat n <= (2 ^ Z.of_nat n - 2 * d) ^ 2.
Proof.
  intros [_ L]. set (m := 2 ^ Z.of_nat n - 2 * d).
  assert (U : forall w, 0 <= w < 2 ^ Z.of_nat n -> Z.abs (walsh n t w) <= m).
  { intros w Hw. pose proof (distance_affine n t true w) as D1. pose proof (distance_affine n t false w) as D2.
    pose proof (L true w Hw). pose proof (L false w Hw). cbn [sign] in *. unfold m. lia. }
  assert (P := parseval n t).
  assert (S : sum_below (2 ^ n) (fun w => walsh n t w * walsh n t w) <= sum_below (2 ^ n) (fun w => m ^ 2 * 1)).
  { apply sum_le. intros w Hw. rewrite pow2_nat in Hw. specialize (U w Hw). nia. }
  rewrite P, sum_scale, sum_one, pow2_nat in S.
  change 4 with (2 * 2) in S. rewrite Z.pow_mul_l in S.
  assert (0 < 2 ^ Z.of_nat n) by (apply Z.pow_pos_nonneg; lia). nia.
Qed.

(** Poly1305 is almost universal: few keys give two messages a prescribed
    difference of tags. *)
From Coq Require Import Znumtheory.
From Verif Require Import Proofs.Tac Model.ChaCha Spec.EncodingSpec Spec.ChaChaSpec Proofs.PolyProofs Proofs.PrimeCert.
Local Open Scope Z_scope.

(** ** roots of polynomials modulo a prime *)
Fixpoint ev (l : list Z) (x : Z) : Z := match l with [] => 0 | c :: l' => c + x * ev l' x end.

Fixpoint sdiv (a c : Z) (l : list Z) : list Z * Z :=
  match l with
  | [] => ([], c)
  | c' :: l' => let (q, r) := sdiv a c' l' in (r :: q, c + a * r)
  end.

Lemma sdiv_ok a x l : forall c, let (q, r) := sdiv a c l in ev (c :: l) x = (x - a) * ev q x + r.
Proof.
  induction l as [|c' l IH]; intros c; cbn [sdiv ev]; [ring|].
  specialize (IH c'). destruct (sdiv a c' l) as [q r]. cbn [ev] in *. rewrite IH. ring.
Qed.
Lemma sdiv_length a l : forall c, length (fst (sdiv a c l)) = length l.
Proof.
  induction l as [|c' l IH]; intros c; cbn [sdiv]; [reflexivity|].
  specialize (IH c'). destruct (sdiv a c' l) as [q r]. cbn [fst length] in *. congruence.
Qed.
Lemma sdiv_zero p a l : forall c, Forall (fun v => (p | v)) (fst (sdiv a c l)) -> (p | snd (sdiv a c l)) ->
  Forall (fun v => (p | v)) (c :: l).
Proof.
  induction l as [|c' l IH]; intros c; cbn [sdiv]; [cbn; auto|].
  specialize (IH c'). destruct (sdiv a c' l) as [q r]. cbn [fst snd] in *. intros F D.
  inversion F as [|? ? Fr Fq]; subst. constructor; [|auto].
  replace c with (c + a * r - a * r) by ring. apply Z.divide_sub_r; [assumption|]. now apply Z.divide_mul_r.
Qed.

Lemma roots p : prime p -> forall l xs, NoDup xs -> Forall (fun x => 0 <= x < p) xs ->
  Forall (fun x => (p | ev l x)) xs -> (length l <= length xs)%nat -> Forall (fun v => (p | v)) l.
Proof.
  intros Pp l. remember (length l) as n eqn:En. revert l En.
  induction n as [|n IH]; intros l En xs ND R Z0 L.
  - destruct l; [constructor|discriminate].
  - destruct l as [|c l]; [discriminate|]. injection En as En. destruct xs as [|a xs]; [cbn in L; lia|].
    inversion ND as [|? ? Na ND']; subst. inversion R as [|? ? Ra R']; subst. inversion Z0 as [|? ? Za Z']; subst.
    pose proof (sdiv_zero p a l c) as SZ. pose proof (sdiv_length a l c) as SL.
    pose proof (fun x => sdiv_ok a x l c) as SO.
    destruct (sdiv a c l) as [q r]. cbn [fst snd] in *.
    assert (Dr : (p | r)). { specialize (SO a). replace r with (ev (c :: l) a) by (rewrite SO; ring). assumption. }
    apply SZ; [|assumption].
    apply (IH q (eq_sym SL) xs ND' R'); [|cbn [length] in L; lia].
    rewrite Forall_forall in *. intros x Hx. specialize (Z' x Hx). rewrite SO in Z'.
    assert (D : (p | (x - a) * ev q x)).
    { replace ((x - a) * ev q x) with ((x - a) * ev q x + r - r) by ring. apply Z.divide_sub_r; assumption. }
    apply prime_mult in D as [D|D]; [|assumption|assumption]. exfalso.
    specialize (R' x Hx). apply Na. replace a with x; [assumption|].
    destruct (Z.eq_dec (x - a) 0); [lia|].
    pose proof (Zdivide_bounds p (x - a) D n). lia.
Qed.

(** ** the polynomial of a message *)
Definition coeffs (m : list Z) : list Z := rev (map (poly_coeff m) (seq 0 (nblocks16 m))).

Lemma psum_ev m r q : psum m r q = ev (0 :: rev (map (poly_coeff m) (seq 0 q))) r.
Proof.
  induction q as [|q IH]; [cbn; ring|].
  rewrite psum_S, IH, seq_S, map_app, rev_app_distr. cbn [map rev app ev Nat.add]. ring.
Qed.

Lemma eval_ev m r : poly1305_eval m r = ev (0 :: coeffs m) r mod p1305.
Proof. unfold poly1305_eval, coeffs. rewrite <- psum_ev. reflexivity. Qed.

Fixpoint lsub (a b : list Z) : list Z :=
  match a, b with
  | [], _ => map Z.opp b
  | _, [] => a
  | x :: a', y :: b' => (x - y) :: lsub a' b'
  end.
Lemma ev_lsub x a : forall b, ev (lsub a b) x = ev a x - ev b x.
Proof.
  induction a as [|u a IH]; intros b.
  - cbn [lsub ev]. induction b as [|v b IHb]; [reflexivity|]. cbn [map ev] in *. rewrite IHb. ring.
  - destruct b as [|v b]; cbn [lsub ev]; [ring|]. rewrite IH. ring.
Qed.
Lemma lsub_length a : forall b, length (lsub a b) = Nat.max (length a) (length b).
Proof.
  induction a as [|u a IH]; intros b; [cbn [lsub]; rewrite map_length; reflexivity|].
  destruct b as [|v b]; cbn [lsub length]; [reflexivity|]. now rewrite IH.
Qed.
Lemma lsub_nth a : forall b i, nth i (lsub a b) 0 = nth i a 0 - nth i b 0.
Proof.
  induction a as [|u a IH]; intros b i.
  - cbn [lsub]. change 0 with (- 0) at 1. rewrite map_nth. destruct i; cbn [nth]; lia.
  - destruct b as [|v b]; cbn [lsub]; [destruct i; cbn [nth]; lia|]. destruct i; cbn [nth]; [reflexivity|apply IH].
Qed.

(** ** different messages have different polynomials *)
Lemma le_value_bound l : octets l -> 0 <= le_value 256 l < 256 ^ len l.
Proof.
  intros O. induction O as [|b l Hb O IH]; [cbn; lia|]. unfold is_octet in Hb.
  cbn [le_value]. rewrite len_cons, Z.pow_add_r by (pose proof (len_nonneg l); lia). lia.
Qed.
Lemma le_value_inj a : forall b, length a = length b -> octets a -> octets b -> le_value 256 a = le_value 256 b -> a = b.
Proof.
  induction a as [|x a IH]; intros [|y b] L Oa Ob E; try discriminate; [reflexivity|].
  apply octets_cons in Oa as [Ox Oa]. apply octets_cons in Ob as [Oy Ob]. unfold is_octet in *.
  cbn [le_value] in E. injection L as L. assert (x = y) by lia. subst y. f_equal. apply IH; auto. lia.
Qed.

Lemma block_octets m i : octets m -> octets (block16 m i).
Proof. intros O. unfold block16. now apply octets_firstn, octets_skipn. Qed.
Lemma block_length m i : (length (block16 m i) <= 16)%nat.
Proof. unfold block16. rewrite firstn_length. lia. Qed.

Lemma coeff_range m i : octets m -> 0 < poly_coeff m i < p1305.
Proof.
  intros O. pose proof (le_value_bound _ (block_octets m i O)) as B. pose proof (block_length m i) as L.
  unfold poly_coeff. fold (len (block16 m i)).
  assert (256 ^ len (block16 m i) <= 256 ^ 16) by (apply Z.pow_le_mono_r; unfold len; lia).
  assert (0 < 256 ^ len (block16 m i)) by (apply Z.pow_pos_nonneg; unfold len; lia).
  change (256 ^ 16) with (2 ^ 128) in *. unfold p1305. change (2 ^ 130) with (4 * 2 ^ 128). lia.
Qed.

Lemma coeff_inj m m' i : octets m -> octets m' -> poly_coeff m i = poly_coeff m' i -> block16 m i = block16 m' i.
Proof.
  intros O O' E. pose proof (block_octets m i O) as Oa. pose proof (block_octets m' i O') as Ob.
  unfold poly_coeff in E. revert E Oa Ob. generalize (block16 m i) (block16 m' i). intros a b E Oa Ob.
  fold (len a) (len b) in E. pose proof (le_value_bound a Oa). pose proof (le_value_bound b Ob).
  assert (G : forall u v : list Z, len u < len v -> 2 * 256 ^ len u <= 256 ^ len v).
  { intros u v H1. apply Z.le_trans with (256 ^ (len u + 1)).
    - rewrite Z.pow_add_r by (pose proof (len_nonneg u); lia). assert (0 < 256 ^ len u) by (apply Z.pow_pos_nonneg; unfold len; lia). lia.
    - apply Z.pow_le_mono_r; lia. }
  destruct (Z.lt_trichotomy (len a) (len b)) as [H1|[H1|H1]].
  - specialize (G a b H1). lia.
  - rewrite H1 in E. apply le_value_inj; auto; [unfold len in H1; lia|lia].
  - specialize (G b a H1). lia.
Qed.

Lemma skipn_skipn' {A} a b : forall l : list A, skipn a (skipn b l) = skipn (b + a) l.
Proof. induction b as [|b IH]; intros l; [reflexivity|]. destruct l; [now rewrite !skipn_nil|]. apply IH. Qed.

Lemma blocks_eq q : forall m m' : list Z, nblocks16 m = q -> nblocks16 m' = q ->
  (forall i, (i < q)%nat -> block16 m i = block16 m' i) -> m = m'.
Proof.
  induction q as [|q IH]; intros m m' Q Q' B; unfold nblocks16 in *.
  - destruct m; [|exfalso; cbn [length] in Q; lia]. destruct m'; [reflexivity|exfalso; cbn [length] in Q'; lia].
  - rewrite <- (firstn_skipn 16 m), <- (firstn_skipn 16 m'). f_equal.
    + apply (B O). lia.
    + apply IH.
      * rewrite skipn_length. lia.
      * rewrite skipn_length. lia.
      * intros i Hi. specialize (B (S i) ltac:(lia)). unfold block16 in *.
        rewrite !skipn_skipn'. replace (16 + 16 * i)%nat with (16 * S i)%nat by lia. assumption.
Qed.

Lemma coeffs_length m : length (coeffs m) = nblocks16 m.
Proof. unfold coeffs. now rewrite rev_length, map_length, seq_length. Qed.
Lemma coeffs_nth m i : (i < nblocks16 m)%nat -> nth i (coeffs m) 0 = poly_coeff m (nblocks16 m - 1 - i).
Proof.
  intros H. unfold coeffs. rewrite rev_nth by (rewrite map_length, seq_length; lia).
  rewrite map_length, seq_length. rewrite (nth_indep _ 0 (poly_coeff m 0)) by (rewrite map_length, seq_length; lia).
  rewrite map_nth, seq_nth by lia. f_equal. lia.
Qed.
Lemma coeffs_range m i : octets m -> 0 <= nth i (coeffs m) 0 < p1305 /\ (nth i (coeffs m) 0 = 0 <-> (nblocks16 m <= i)%nat).
Proof.
  intros O. destruct (le_lt_dec (nblocks16 m) i) as [H|H].
  - rewrite nth_overflow by (now rewrite coeffs_length). split; [unfold p1305; lia|tauto].
  - rewrite coeffs_nth by assumption. pose proof (coeff_range m (nblocks16 m - 1 - i) O). split; [lia|]. split; lia.
Qed.

Lemma coeffs_inj m m' : octets m -> octets m' -> (forall i, nth i (coeffs m) 0 = nth i (coeffs m') 0) -> m = m'.
Proof.
  intros O O' H.
  assert (Q : nblocks16 m = nblocks16 m').
  { destruct (lt_eq_lt_dec (nblocks16 m) (nblocks16 m')) as [[L|E]|L]; [|assumption|]; exfalso.
    - pose proof (proj2 (coeffs_range m (nblocks16 m) O)) as A. pose proof (proj2 (coeffs_range m' (nblocks16 m) O')) as B.
      rewrite H in A. lia.
    - pose proof (proj2 (coeffs_range m (nblocks16 m') O)) as A. pose proof (proj2 (coeffs_range m' (nblocks16 m') O')) as B.
      rewrite H in A. lia. }
  apply (blocks_eq (nblocks16 m) m m'); auto. intros i Hi. apply coeff_inj; auto.
  specialize (H (nblocks16 m - 1 - i)%nat). rewrite !coeffs_nth in H by lia.
  replace (nblocks16 m - 1 - (nblocks16 m - 1 - i))%nat with i in H by lia.
  replace (nblocks16 m' - 1 - (nblocks16 m - 1 - i))%nat with i in H by lia. assumption.
Qed.

(** ** counting *)
Lemma p1305_prime : prime p1305.
Proof.
  apply (cert_prime
[Cert 5 2 [(2, 2%nat)];
   Cert 11 2 [(2, 1%nat); (5, 1%nat)];
   Cert 23 5 [(2, 1%nat); (11, 1%nat)];
   Cert 17 3 [(2, 4%nat)];
   Cert 89 3 [(2, 3%nat); (11, 1%nat)];
   Cert 19403 2 [(2, 1%nat); (89, 1%nat)];
   Cert 32985101 2 [(2, 2%nat); (5, 2%nat); (17, 1%nat); (19403, 1%nat)];
   Cert 73 5 [(2, 3%nat)];
   Cert 3 2 [(2, 1%nat)];
   Cert 487 3 [(2, 1%nat); (3, 5%nat)];
   Cert 3134801 3 [(2, 4%nat); (5, 2%nat); (17, 1%nat)];
   Cert 13 2 [(2, 2%nat)];
   Cert 43 3 [(2, 1%nat); (3, 1%nat)];
   Cert 4889 3 [(2, 3%nat); (13, 1%nat)];
   Cert 7 3 [(2, 1%nat)];
   Cert 881 3 [(2, 4%nat); (5, 1%nat)];
   Cert 37003 2 [(2, 1%nat); (3, 1%nat); (7, 1%nat); (881, 1%nat)];
   Cert 4024685905107147541 2 [(2, 2%nat); (3, 2%nat); (5, 1%nat); (13, 1%nat); (43, 1%nat); (4889, 1%nat); (37003, 1%nat)];
   Cert 897064739519922787230182993783 5 [(2, 1%nat); (73, 1%nat); (487, 1%nat); (3134801, 1%nat); (4024685905107147541, 1%nat)];
   Cert 1361129467683753853853498429727072845819 2 [(2, 1%nat); (23, 1%nat); (32985101, 1%nat); (897064739519922787230182993783, 1%nat)]]).
  - vm_compute. reflexivity.
  - vm_compute. intuition.
Qed.

Lemma clamp_range key : octets key -> 0 <= rfc_clamp key < 2 ^ 128.
Proof.
  intros O. unfold rfc_clamp. set (l := map _ _).
  assert (Ol : octets l).
  { apply Forall_forall. intros x Hx. unfold l in Hx. apply in_map_iff in Hx as (i & <- & _).
    assert (is_octet (nth i key 0)).
    { destruct (le_lt_dec (length key) i) as [H|H]; [rewrite nth_overflow by assumption; unfold is_octet; lia|].
      apply (proj1 (Forall_forall _ _) O). now apply nth_In. }
    unfold is_octet in *. destruct (existsb _ [3%nat; _; _; _]); [lia|]. destruct (existsb _ _); lia. }
  pose proof (le_value_bound l Ol) as B. change (len l) with 16 in B. exact B.
Qed.

(** keys for which the values of the two polynomials differ by [e] *)
Lemma one_class m m' e rs : octets m -> octets m' -> m <> m' -> NoDup rs ->
  Forall (fun r => 0 <= r < p1305) rs ->
  Forall (fun r => poly1305_eval m r - poly1305_eval m' r = e) rs ->
  (length rs <= Nat.max (nblocks16 m) (nblocks16 m'))%nat.
Proof.
  intros O O' N ND R E.
  destruct (le_lt_dec (length rs) (Nat.max (nblocks16 m) (nblocks16 m'))) as [|G]; [assumption|exfalso].
  set (l := - e :: lsub (coeffs m) (coeffs m')).
  assert (F : Forall (fun v => (p1305 | v)) l).
  { apply (roots _ p1305_prime l rs ND R).
    - rewrite Forall_forall in *. intros r Hr. specialize (E r Hr). rewrite !eval_ev in E.
      unfold l. cbn [ev]. rewrite ev_lsub. cbn [ev] in E.
      set (u := r * ev (coeffs m) r) in *. set (v := r * ev (coeffs m') r) in *.
      replace (- e + r * (ev (coeffs m) r - ev (coeffs m') r)) with (u - v - e) by (unfold u, v; ring).
      rewrite !Z.add_0_l in E. rewrite <- E.
      pose proof (Z.div_mod u p1305 ltac:(discriminate)). pose proof (Z.div_mod v p1305 ltac:(discriminate)).
      exists (u / p1305 - v / p1305). 
      replace ((u / p1305 - v / p1305) * p1305) with (p1305 * (u / p1305) - p1305 * (v / p1305)) by ring.
      clear - H H0. lia.
    - unfold l. cbn [length]. rewrite lsub_length, !coeffs_length. lia. }
  apply N. apply coeffs_inj; auto. intros i.
  unfold l in F. inversion F as [|? ? _ F']; subst. clear F.
  assert (D : (p1305 | nth i (lsub (coeffs m) (coeffs m')) 0)).
  { destruct (le_lt_dec (length (lsub (coeffs m) (coeffs m'))) i) as [H|H].
    - rewrite nth_overflow by assumption. apply Z.divide_0_r.
    - apply (proj1 (Forall_forall _ _) F'). now apply nth_In. }
  rewrite lsub_nth in D. pose proof (proj1 (coeffs_range m i O)). pose proof (proj1 (coeffs_range m' i O')).
  destruct (Z.eq_dec (nth i (coeffs m) 0 - nth i (coeffs m') 0) 0); [lia|].
  pose proof (Zdivide_bounds _ _ D n). lia.
Qed.

Lemma NoDup_map_filter {A} (f : A -> Z) g (l : list A) : NoDup (map f l) -> NoDup (map f (filter g l)).
Proof.
  induction l as [|x l IH]; intros H; [constructor|]. cbn [map filter] in *. inversion H as [|? ? N ND]; subst.
  destruct (g x); [|auto]. cbn [map]. constructor; [|auto]. intros I. apply N.
  apply in_map_iff in I as (y & E & I). apply filter_In in I as [I _]. apply in_map_iff. now exists y.
Qed.

Lemma class_count {A} (c : A -> Z) K (b : nat) : forall l, (forall x, In x l -> 0 <= c x < Z.of_nat K) ->
  (forall j, (length (filter (fun x => (c x =? j)%Z) l) <= b)%nat) -> (length l <= K * b)%nat.
Proof.
  induction K as [|K IH]; intros l R B.
  - destruct l as [|x l]; [cbn; lia|]. specialize (R x (or_introl eq_refl)). lia.
  - assert (S : length l = (length (filter (fun x => (c x =? Z.of_nat K)%Z) l) + length (filter (fun x => negb (c x =? Z.of_nat K)%Z) l))%nat).
    { clear. induction l as [|x l IH]; [reflexivity|]. cbn [filter]. destruct (c x =? Z.of_nat K); cbn [negb length]; lia. }
    rewrite S. cbn [Nat.mul].
    specialize (IH (filter (fun x => negb (c x =? Z.of_nat K)%Z) l)).
    assert (I : (length (filter (fun x => negb (c x =? Z.of_nat K)%Z) l) <= K * b)%nat).
    { apply IH.
      - intros x Hx. apply filter_In in Hx as [Hx N]. specialize (R x Hx). lia.
      - intros j. specialize (B j). eapply Nat.le_trans; [|exact B].
        clear. induction l as [|x l IH]; [cbn; lia|]. cbn [filter].
        destruct (c x =? Z.of_nat K), (c x =? j) eqn:E; cbn [negb filter length]; rewrite ?E; cbn [length]; lia. }
    specialize (B (Z.of_nat K)). lia.
Qed.

Lemma almost_universal m m' d keys : octets m -> octets m' -> m <> m' ->
  NoDup (map rfc_clamp keys) ->
  Forall (fun key => octets key /\ len key = 32 /\ exists tag tag',
     poly1305_mac m key = Ok tag /\ poly1305_mac m' key = Ok tag' /\
     (le_value 256 tag - le_value 256 tag') mod 2 ^ 128 = d mod 2 ^ 128) keys ->
  (length keys <= 8 * Nat.max (nblocks16 m) (nblocks16 m'))%nat.
Proof.
  intros O O' N ND F.
  set (df := fun key => poly1305_eval m (rfc_clamp key) - poly1305_eval m' (rfc_clamp key)).
  assert (T : forall key, In key keys -> octets key /\ (df key) mod 2 ^ 128 = d mod 2 ^ 128).
  { intros key Hk. rewrite Forall_forall in F. destruct (F key Hk) as (Ok_ & L & t & t' & E1 & E2 & E3).
    split; [assumption|].
    rewrite poly_mac_spec in E1, E2 by (auto; lia). injection E1 as <-. injection E2 as <-.
    unfold rfc_poly1305 in E3. rewrite !le_octets_value in E3. change (256 ^ Z.of_nat 16) with (2 ^ 128) in E3.
    rewrite !Z.mod_mod in E3 by discriminate. rewrite <- Zminus_mod in E3. rewrite <- E3. unfold df. f_equal. ring. }
  set (c := fun key => (df key - d mod 2 ^ 128) / 2 ^ 128 + 4).
  apply (class_count c 8).
  - intros key Hk. destruct (T key Hk) as [_ E]. unfold c.
    pose proof (Z.mod_pos_bound d (2 ^ 128) ltac:(lia)) as Bd.
    assert (B : - p1305 < df key < p1305).
    { unfold df, poly1305_eval.
      match goal with |- _ < ?a mod _ - ?b mod _ < _ =>
        pose proof (Z.mod_pos_bound a p1305 p1305_pos); pose proof (Z.mod_pos_bound b p1305 p1305_pos) end. lia. }
    unfold p1305 in B. change (2 ^ 130) with (4 * 2 ^ 128) in B.
    pose proof (Z.div_mod (df key) (2 ^ 128) ltac:(discriminate)) as DM. rewrite E in DM.
    replace ((df key - d mod 2 ^ 128) / 2 ^ 128) with (df key / 2 ^ 128).
    + clear - B Bd DM. set (k := df key / 2 ^ 128) in *. set (d0 := d mod 2 ^ 128) in *. lia.
    + rewrite DM at 2. replace (2 ^ 128 * (df key / 2 ^ 128) + d mod 2 ^ 128 - d mod 2 ^ 128) with ((df key / 2 ^ 128) * 2 ^ 128) by ring.
      symmetry. apply Z.div_mul. discriminate.
  - intros j.
    rewrite <- (map_length rfc_clamp).
    apply (one_class m m' (d mod 2 ^ 128 + (j - 4) * 2 ^ 128)); auto.
    + now apply NoDup_map_filter.
    + apply Forall_forall. intros r Hr. apply in_map_iff in Hr as (key & <- & Hk). apply filter_In in Hk as [Hk _].
      pose proof (clamp_range key (proj1 (T key Hk))). unfold p1305. change (2 ^ 130) with (4 * 2 ^ 128). lia.
    + apply Forall_forall. intros r Hr. apply in_map_iff in Hr as (key & <- & Hk). apply filter_In in Hk as [Hk C].
      apply Z.eqb_eq in C. destruct (T key Hk) as [_ E]. fold (df key). unfold c in C.
      pose proof (Z.div_mod (df key) (2 ^ 128) ltac:(discriminate)) as DM. rewrite E in DM.
      assert (Q : (df key - d mod 2 ^ 128) / 2 ^ 128 = df key / 2 ^ 128).
      { rewrite DM at 1. replace (2 ^ 128 * (df key / 2 ^ 128) + d mod 2 ^ 128 - d mod 2 ^ 128) with ((df key / 2 ^ 128) * 2 ^ 128) by ring.
        apply Z.div_mul. discriminate. }
      rewrite Q in C. rewrite DM. replace (j - 4) with (df key / 2 ^ 128) by lia. ring.
Qed.

Lemma coefficients_determine m m' : octets m -> octets m' -> nblocks16 m = nblocks16 m' ->
  (forall i, (i < nblocks16 m)%nat -> poly_coeff m i = poly_coeff m' i) -> m = m'.
Proof.
  intros O O' Q H. apply (blocks_eq (nblocks16 m)); auto. intros i Hi. apply coeff_inj; auto.
Qed.

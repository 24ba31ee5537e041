(** Order of the encoded strings (C97) *)
From Verif Require Import Proofs.Tac Model.Encoding Spec.EncodingSpec Spec.SortSpec Proofs.EncodingProofs.
From Coq Require Import Sorted.
Local Open Scope Z_scope.

(** digits mapped by an increasing function *)
Lemma lex_value base (f : Z -> Z) : 1 <= base -> (forall d e, 0 <= d < base -> 0 <= e < base -> (f d < f e <-> d < e)) ->
  forall a b, length a = length b -> Forall (fun d => 0 <= d < base) a -> Forall (fun d => 0 <= d < base) b ->
  (str_lt (map f a) (map f b) <-> be_value base a < be_value base b).
Proof.
  intros HB F. induction a as [|x a IH]; intros [|y b] L A B; try discriminate L.
  - cbn. split; [intros H; inversion H|lia].
  - inversion A as [|? ? Hx Ha]; subst. inversion B as [|? ? Hy Hb]; subst. injection L as L. specialize (IH b L Ha Hb).
    pose proof (be_value_bound base a HB Ha) as U. pose proof (be_value_bound base b HB Hb) as V. unfold len in U, V. rewrite L in U.
    cbn [map be_value]. rewrite L. set (M := base ^ Z.of_nat (length b)) in *.
    destruct (Z.lt_trichotomy x y) as [E|[E|E]].
    + split; [intros _; nia|]. intros _. apply lt_here. now apply F.
    + subst y. split.
      * intros H. inversion H as [|? ? ? ? Q|? ? ? Q]; subst; [exfalso; exact (Z.lt_irrefl _ Q)|]. apply IH in Q. apply Z.add_lt_mono_l. exact Q.
      * intros H. apply lt_later. apply IH. apply Z.add_lt_mono_l in H. exact H.
    + split; [|nia]. intros H. exfalso. inversion H as [|? ? ? ? Q|? ? ? Q EQ]; subst; [apply (F x y Hx Hy) in Q; lia|].
      assert (N : f y < f x) by (apply (F y x Hy Hx); lia). lia.
Qed.

Lemma map_id' (l : list Z) : map (fun x => x) l = l.
Proof. apply map_id. Qed.

Lemma octet_lex a b : length a = length b -> octets a -> octets b -> (str_lt a b <-> be_value 256 a < be_value 256 b).
Proof.
  intros L A B. pose proof (lex_value 256 (fun x => x) ltac:(lia) ltac:(intros; reflexivity) a b L A B) as H. now rewrite !map_id' in H.
Qed.

(** canonical digit strings: the shorter one is smaller *)
Lemma shorter base a b : 2 <= base -> Forall (fun d => 0 <= d < base) a -> Forall (fun d => 0 <= d < base) b ->
  b <> [] -> no_leading_zero b -> (length a < length b)%nat -> be_value base a < be_value base b.
Proof.
  intros HB A B N Z0 L. pose proof (be_value_bound base a ltac:(lia) A) as U.
  destruct b as [|y b]; [congruence|]. cbn in Z0. inversion B as [|? ? Hy Hb]; subst.
  pose proof (be_value_bound base b ltac:(lia) Hb) as V. cbn [be_value].
  assert (P : base ^ len a <= base ^ Z.of_nat (length b)) by (apply Z.pow_le_mono_r; unfold len; cbn in L; lia).
  assert (0 < base ^ Z.of_nat (length b)) by (apply Z.pow_pos_nonneg; lia). nia.
Qed.

Lemma shortlex_value base (f : Z -> Z) a b : 2 <= base -> (forall d e, 0 <= d < base -> 0 <= e < base -> (f d < f e <-> d < e)) ->
  Forall (fun d => 0 <= d < base) a -> Forall (fun d => 0 <= d < base) b -> no_leading_zero a -> no_leading_zero b ->
  (shortlex (map f a) (map f b) <-> be_value base a < be_value base b).
Proof.
  intros HB F A B Na Nb. unfold shortlex. rewrite !map_length.
  destruct (Nat.lt_trichotomy (length a) (length b)) as [L|[L|L]].
  - split; [|auto]. intros _. apply shorter; auto. intros ->. cbn in L. lia.
  - rewrite (lex_value base f ltac:(lia) F a b L A B). split; [intros [H|[_ H]]; [lia|exact H]|auto].
  - split; [intros [H|[H _]]; lia|]. intros H. exfalso. assert (be_value base b < be_value base a); [|lia]. apply shorter; auto. intros ->. cbn in L. lia.
Qed.

Lemma padded_ok x k s : 0 < k -> int_to_string x (Some k) = Ok s -> octets s /\ len s = k /\ be_value 256 s = x.
Proof.
  intros K E. destruct (Z_lt_dec x 0) as [N|N]; [rewrite int_to_string_neg in E by lia; discriminate|].
  destruct (Z_lt_dec x (256 ^ k)) as [F|F]; [|rewrite int_to_string_too_long in E by lia; discriminate].
  destruct (int_to_string_pad x k ltac:(lia) K F) as (t & E' & T). rewrite E in E'. injection E' as <-. exact T.
Qed.

Lemma c97_padded : forall x y k s t, 0 < k -> int_to_string x (Some k) = Ok s -> int_to_string y (Some k) = Ok t -> (str_lt s t <-> x < y).
Proof.
  intros x y k s t K E E'. destruct (padded_ok _ _ _ K E) as (O & L & V). destruct (padded_ok _ _ _ K E') as (O' & L' & V').
  rewrite <- V, <- V'. apply octet_lex; auto. unfold len in *. lia.
Qed.

Lemma c97_shortest : forall x y s t, int_to_string x None = Ok s -> int_to_string y None = Ok t -> (shortlex s t <-> x < y).
Proof.
  intros x y s t E E'. apply int_to_string_none_iff in E as (X & O & N & V & C). apply int_to_string_none_iff in E' as (Y & O' & N' & V' & C').
  rewrite <- V, <- V'. clear X Y V V'.
  assert (Z1 : forall a, octets a -> a <> [] -> no_leading_zero a \/ a = [0] -> (shortlex [0] a <-> be_value 256 [0] < be_value 256 a)).
  { intros a Oa Na [Ca|Ca]; [|subst a; cbn; unfold shortlex; split; [intros [H|[_ H]]; [lia|inversion H as [|? ? ? ? Q|? ? ? Q]; [lia|inversion Q]]|lia]].
    destruct a as [|x1 [|x2 a]]; [congruence| |].
    - cbn in Ca. inversion Oa as [|? ? Hx _]; subst. unfold is_octet in Hx. cbn. split; [lia|]. intros _. right. split; [reflexivity|]. apply lt_here. lia.
    - split; [|intros _; left; cbn; lia]. intros _. apply shorter; auto; try lia. repeat constructor; lia. cbn. lia. }
  destruct C as [C| ->]; [|now apply Z1].
  destruct C' as [C'| ->].
  - pose proof (shortlex_value 256 (fun x => x) s t ltac:(lia) ltac:(intros; reflexivity) O O' C C') as H. now rewrite !map_id' in H.
  - cbn [be_value length]. change (0 * 256 ^ Z.of_nat 0 + 0) with 0. pose proof (be_value_bound 256 s ltac:(lia) O). split; [|lia].
    intros [H0|[H0 H1]]; [destruct s; cbn in H0; [congruence|lia]|]. destruct s as [|x1 [|x2 s]]; try discriminate H0.
    inversion O as [|? ? Hx _]; subst. unfold is_octet in Hx. inversion H1 as [|? ? ? ? Q|? ? ? Q]; [lia|inversion Q].
Qed.

Lemma sorted_nth (l : list Z) : StronglySorted Z.lt l -> forall i j, (i < j < length l)%nat -> nth i l 0 < nth j l 0.
Proof.
  induction 1 as [|x l S IH F]; intros i j H; [cbn in H; lia|]. destruct j as [|j]; [lia|]. destruct i as [|i]; cbn [nth].
  - apply (proj1 (Forall_forall _ _) F). apply nth_In. cbn in H. lia.
  - apply IH. cbn in H. lia.
Qed.

Lemma alpha_char_mono alphabet : StronglySorted Z.lt alphabet -> forall d e, 0 <= d < len alphabet -> 0 <= e < len alphabet -> (alpha_char alphabet d < alpha_char alphabet e <-> d < e).
Proof.
  intros S d e D E. unfold alpha_char, len in *.
  destruct (Z.lt_trichotomy d e) as [H|[H|H]].
  - pose proof (sorted_nth _ S (Z.to_nat d) (Z.to_nat e) ltac:(lia)). lia.
  - subst. lia.
  - pose proof (sorted_nth _ S (Z.to_nat e) (Z.to_nat d) ltac:(lia)). lia.
Qed.

Lemma c97_base_N : forall alphabet s t text text', 2 <= len alphabet -> StronglySorted Z.lt alphabet -> octets s -> octets t ->
  base_N_encode s alphabet = Ok text -> base_N_encode t alphabet = Ok text' -> (shortlex text text' <-> be_value 256 s < be_value 256 t).
Proof.
  intros alphabet s t text text' A S O O' E E'.
  destruct (base_N_encode_spec s alphabet O A) as (ds & E1 & F & N & V). destruct (base_N_encode_spec t alphabet O' A) as (ds' & E1' & F' & N' & V').
  rewrite E in E1. injection E1 as ->. rewrite E' in E1'. injection E1' as ->. rewrite <- V, <- V'.
  apply shortlex_value; auto. now apply alpha_char_mono.
Qed.

Lemma b94_sorted : StronglySorted Z.lt ascii_printable.
Proof.
  unfold ascii_printable. cut (forall n m, StronglySorted Z.lt (map (fun i => Z.of_nat i) (seq m n))); [intros H; apply H|].
  induction n as [|n IH]; intros m; cbn [seq map]; constructor; [apply IH|].
  apply Forall_forall. intros x Hx. apply in_map_iff in Hx as (i & <- & Hi). apply in_seq in Hi. lia.
Qed.

Lemma c97_b94 : forall s t text text', octets s -> octets t -> b94encode s = Ok text -> b94encode t = Ok text' -> (shortlex text text' <-> be_value 256 s < be_value 256 t).
Proof. intros s t text text' O O'. apply c97_base_N; auto; [rewrite (proj1 b94_alpha); lia|exact b94_sorted]. Qed.

(** letters before digits in base 27, letters before ! in base 85 *)
Lemma c97_refuted :
  (exists s t u u', octets s /\ octets t /\ be_value 256 s < be_value 256 t /\ b27encode s = Ok u /\ b27encode t = Ok u' /\ str_lt u' u /\ length u = length u') /\
  (exists s t u u', octets s /\ octets t /\ be_value 256 s < be_value 256 t /\ b85encode s = Ok u /\ b85encode t = Ok u' /\ str_lt u' u /\ length u = length u') /\
  (exists x y s t, int_to_string x None = Ok s /\ int_to_string y None = Ok t /\ x < y /\ str_lt t s).
Proof.
  split; [|split].
  - exists [19], [20]. do 2 eexists. do 2 (split; [repeat constructor; unfold is_octet; lia|]). split; [reflexivity|]. do 2 (split; [vm_compute; reflexivity|]). split; [apply lt_here; reflexivity|reflexivity].
  - exists [61], [62]. do 2 eexists. do 2 (split; [repeat constructor; unfold is_octet; lia|]). split; [reflexivity|]. do 2 (split; [vm_compute; reflexivity|]). split; [apply lt_here; reflexivity|reflexivity].
  - exists 255, 256. do 2 eexists. do 2 (split; [vm_compute; reflexivity|]). split; [reflexivity|]. apply lt_here. reflexivity.
Qed.

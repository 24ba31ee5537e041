From Coq Require Import String.
From Verif Require Import Proofs.Tac Proofs.Bits Model.Michael Spec.AesSpec Spec.MichaelSpec Proofs.AesProofs.
Local Open Scope Z_scope.

Definition w16 (x : Z) : Prop := 0 <= x < 2 ^ 16.
Definition w16t (p : Z * Z * Z * Z * Z) : Prop :=
  let '(p0, p1, p2, p3, p4) := p in w16 p0 /\ w16 p1 /\ w16 p2 /\ w16 p3 /\ w16 p4.

Lemma land16 x : Z.land x 0xFFFF = x mod 2 ^ 16.
Proof. change 0xFFFF with (2 ^ 16 - 1). apply land_ones_mod. lia. Qed.
Lemma land16_w x : w16 (Z.land x 0xFFFF).
Proof. rewrite land16. unfold w16. apply Z.mod_pos_bound. lia. Qed.
Lemma cancel16 a c f : w16 a -> w16 c -> Z.land (a + f) 0xFFFF = Z.land (c + f) 0xFFFF -> a = c.
Proof.
  unfold w16. intros Ha Hc. rewrite !land16. change (2 ^ 16) with 65536 in *. intros E.
  assert (F : ((a + f) - (c + f)) mod 65536 = 0) by (rewrite Zminus_mod, E, Z.sub_diag; reflexivity).
  replace (a + f - (c + f)) with (a - c) in F by lia. lia.
Qed.
Lemma cancel16i a c f i : w16 a -> w16 c -> Z.land (a + f + i) 0xFFFF = Z.land (c + f + i) 0xFFFF -> a = c.
Proof. rewrite <- !Z.add_assoc. apply cancel16. Qed.

Lemma nth_octet l i : octets l -> is_octet (nth i l 0).
Proof.
  intros H. destruct (lt_dec i (List.length l)) as [L|L].
  - exact (proj1 (Forall_forall _ _) H _ (nth_In l 0 L)).
  - rewrite nth_overflow by lia. unfold is_octet; lia.
Qed.
Lemma mk16_w l i j : octets l -> w16 (at_ l i * 256 + at_ l j).
Proof. intros H. pose proof (nth_octet l i H). pose proof (nth_octet l j H). unfold is_octet, w16, at_ in *. lia. Qed.
Lemma mk16_inj l m i j : octets l -> octets m -> at_ l i * 256 + at_ l j = at_ m i * 256 + at_ m j ->
  at_ l i = at_ m i /\ at_ l j = at_ m j.
Proof.
  intros H H'. pose proof (nth_octet l i H). pose proof (nth_octet l j H).
  pose proof (nth_octet m i H'). pose proof (nth_octet m j H'). unfold is_octet, at_ in *. lia.
Qed.

Section S.
Context (Sb : Z -> Z).
Local Notation S' := (S Sb).

Lemma phase1_round_w tk i p : w16t (phase1_round Sb tk i p).
Proof. destruct p as [[[[p0 p1] p2] p3] p4]. cbv [phase1_round w16t]. repeat split; apply land16_w. Qed.
Lemma phase1_round_inj tk i p q : w16t p -> w16t q -> phase1_round Sb tk i p = phase1_round Sb tk i q -> p = q.
Proof.
  destruct p as [[[[p0 p1] p2] p3] p4], q as [[[[q0 q1] q2] q3] q4].
  intros (W0 & W1 & W2 & W3 & W4) (V0 & V1 & V2 & V3 & V4). unfold phase1_round. cbv zeta.
  intros E. injection E as E0 E1 E2 E3 E4.
  rewrite E3 in E4. apply cancel16i in E4; auto. rewrite E2 in E3. apply cancel16 in E3; auto.
  rewrite E1 in E2. apply cancel16 in E2; auto. rewrite E0 in E1. apply cancel16 in E1; auto.
  rewrite E4 in E0. apply cancel16 in E0; auto. congruence.
Qed.
Lemma rounds_inj tk is : forall p q, w16t p -> w16t q ->
  fold_left (fun p i => phase1_round Sb tk i p) is p = fold_left (fun p i => phase1_round Sb tk i p) is q -> p = q.
Proof.
  induction is as [|i is IH]; intros p q Hp Hq E; cbn [fold_left] in E; auto.
  apply IH in E; [|apply phase1_round_w|apply phase1_round_w]. eapply phase1_round_inj; eauto.
Qed.
Lemma rounds_w tk is : forall p, w16t p -> w16t (fold_left (fun p i => phase1_round Sb tk i p) is p).
Proof. induction is as [|i is IH]; intros p Hp; cbn [fold_left]; auto. apply IH. apply phase1_round_w. Qed.

Lemma phase1_start_w ta pn : octets ta -> octets pn ->
  w16t (at_ pn 3 * 256 + at_ pn 2, at_ pn 5 * 256 + at_ pn 4,
        at_ ta 1 * 256 + at_ ta 0, at_ ta 3 * 256 + at_ ta 2, at_ ta 5 * 256 + at_ ta 4).
Proof. intros. unfold w16t. auto 6 using mk16_w. Qed.
Lemma phase1_w tk ta pn : octets ta -> octets pn -> w16t (phase1KeyMixing Sb tk ta pn).
Proof. intros. unfold phase1KeyMixing. cbv zeta. apply rounds_w. now apply phase1_start_w. Qed.

Lemma list6 (l m : list Z) : len l = 6 -> len m = 6 ->
  at_ l 0 = at_ m 0 -> at_ l 1 = at_ m 1 -> at_ l 2 = at_ m 2 -> at_ l 3 = at_ m 3 -> at_ l 4 = at_ m 4 ->
  at_ l 5 = at_ m 5 -> l = m.
Proof.
  unfold len, at_. intros L M.
  destruct l as [|a0 [|a1 [|a2 [|a3 [|a4 [|a5 [|]]]]]]]; cbn [List.length] in L; try lia.
  destruct m as [|b0 [|b1 [|b2 [|b3 [|b4 [|b5 [|]]]]]]]; cbn [List.length] in M; try lia.
  cbn [nth]. intros. congruence.
Qed.

Lemma phase1_inj tk ta pn ta' pn' : octets ta -> octets pn -> octets ta' -> octets pn' -> len ta = 6 -> len ta' = 6 ->
  phase1KeyMixing Sb tk ta pn = phase1KeyMixing Sb tk ta' pn' ->
  ta = ta' /\ at_ pn 2 = at_ pn' 2 /\ at_ pn 3 = at_ pn' 3 /\ at_ pn 4 = at_ pn' 4 /\ at_ pn 5 = at_ pn' 5.
Proof.
  intros Ha Hp Ha' Hp' L L'. unfold phase1KeyMixing. cbv zeta. intros E.
  apply rounds_inj in E; [|now apply phase1_start_w|now apply phase1_start_w].
  injection E as E0 E1 E2 E3 E4. apply mk16_inj in E0, E1, E2, E3, E4; auto.
  destruct E0, E1, E2, E3, E4. split; [apply list6; auto|auto].
Qed.

Lemma bytes16_inj x y : w16 x -> w16 y -> Z.land x 0xff = Z.land y 0xff ->
  Z.land (Z.shiftr x 8) 0xff = Z.land (Z.shiftr y 8) 0xff -> x = y.
Proof.
  unfold w16. intros Hx Hy. change 0xff with (2 ^ 8 - 1). rewrite !land_ones_mod, !Z.shiftr_div_pow2 by lia.
  change (2 ^ 8) with 256. change (2 ^ 16) with 65536 in *. lia.
Qed.

Lemma phase2_inj tk p pn q pn' : w16t p -> w16t q ->
  phase2KeyMixing Sb tk p pn = phase2KeyMixing Sb tk q pn' -> p = q /\ at_ pn 0 = at_ pn' 0 /\ at_ pn 1 = at_ pn' 1.
Proof.
  destruct p as [[[[p0 p1] p2] p3] p4], q as [[[[q0 q1] q2] q3] q4].
  intros (W0 & W1 & W2 & W3 & W4) (V0 & V1 & V2 & V3 & V4). unfold phase2KeyMixing. cbv zeta. cbn [flat_map app].
  intros E. injection E as E0 _ E1 _ K0 K0' K1 K1' K2 K2' K3 K3' K4 K4' K5 K5'.
  apply bytes16_inj in K0; [|apply land16_w|apply land16_w|exact K0'].
  apply bytes16_inj in K1; [|apply land16_w|apply land16_w|exact K1'].
  apply bytes16_inj in K2; [|apply land16_w|apply land16_w|exact K2'].
  apply bytes16_inj in K3; [|apply land16_w|apply land16_w|exact K3'].
  apply bytes16_inj in K4; [|apply land16_w|apply land16_w|exact K4'].
  apply bytes16_inj in K5; [|apply land16_w|apply land16_w|exact K5'].
  clear K0' K1' K2' K3' K4' K5'.
  rewrite K4 in K5. apply cancel16 in K5; [|apply land16_w|apply land16_w].
  rewrite K3 in K4. apply cancel16 in K4; [|apply land16_w|apply land16_w].
  rewrite K2 in K3. apply cancel16 in K3; [|apply land16_w|apply land16_w].
  rewrite K1 in K2. apply cancel16 in K2; [|apply land16_w|apply land16_w].
  rewrite K0 in K1. apply cancel16 in K1; [|apply land16_w|apply land16_w].
  rewrite K5 in K0. apply cancel16 in K0; [|apply land16_w|apply land16_w].
  clear K5.
  rewrite K3 in K4. apply cancel16 in K4; auto. subst q4.
  rewrite K2 in K3. apply cancel16 in K3; auto.
  rewrite K1 in K2. apply cancel16 in K2; auto.
  rewrite K0 in K1. apply cancel16 in K1; auto.
  rewrite E0, E1 in K0. apply cancel16 in K0; auto.
  split; [congruence|auto].
Qed.

Lemma mix_inj tk ta pn ta' pn' : octets ta -> octets pn -> octets ta' -> octets pn' ->
  len ta = 6 -> len ta' = 6 -> len pn = 6 -> len pn' = 6 ->
  phase2KeyMixing Sb tk (phase1KeyMixing Sb tk ta pn) pn = phase2KeyMixing Sb tk (phase1KeyMixing Sb tk ta' pn') pn' ->
  ta = ta' /\ pn = pn'.
Proof.
  intros Ha Hp Ha' Hp' L L' M M' E. apply phase2_inj in E; [|now apply phase1_w|now apply phase1_w].
  destruct E as (E & E0 & E1). apply phase1_inj in E; auto. destruct E as (Et & E2 & E3 & E4 & E5).
  split; [auto|]. apply list6; auto.
Qed.

(** ** the cache *)
Lemma last4_6 pn : len pn = 6 -> last4 pn = [at_ pn 2; at_ pn 3; at_ pn 4; at_ pn 5].
Proof.
  unfold len, at_, last4, slice_from, len. intros L.
  destruct pn as [|a0 [|a1 [|a2 [|a3 [|a4 [|a5 [|]]]]]]]; cbn [List.length] in L; try lia. reflexivity.
Qed.
Lemma phase1_last4 tk ta pn pn' : len pn = 6 -> len pn' = 6 -> last4 pn = last4 pn' ->
  phase1KeyMixing Sb tk ta pn = phase1KeyMixing Sb tk ta pn'.
Proof.
  intros L L' E. rewrite !last4_6 in E by auto. injection E as E2 E3 E4 E5. unfold phase1KeyMixing.
  now rewrite E2, E3, E4, E5.
Qed.

Definition inv (m : mixer) : Prop :=
  len (m_pn m) = 6 /\ m_upper m = last4 (m_pn m) /\
  match m_tk m, m_ta m with
  | Some tk, Some ta => m_phase1 m = Some (phase1KeyMixing Sb tk ta (m_pn m))
  | _, _ => True
  end.

Lemma new_inv tk ta pn m : mixer_new Sb tk ta pn = Ok m -> inv m /\ m_tk m = tk /\ m_ta m = ta.
Proof.
  unfold mixer_new, mixer_setPnBytes, mixer_setKey, mixer_setTA, inv. 
  destruct (len pn =? 6) eqn:L; [|discriminate]. apply Z.eqb_eq in L. cbn [m_tk m_ta m_pn m_upper m_phase1].
  destruct tk as [k|]; destruct ta as [t|];
   repeat match goal with |- context [if negb ?c then _ else _] => destruct c; cbn [negb bind m_tk m_ta m_pn m_upper m_phase1] end;
   cbn [bind m_tk m_ta m_pn m_upper m_phase1]; intros E; inversion E; subst; cbn [m_tk m_ta m_pn m_upper m_phase1]; auto.
Qed.

Definition no_setPn (op : mixer_op) : Prop := match op with MSetPnBytes _ => False | _ => True end.
(** the current temporal key and address after a call: a call that raises changes neither *)
Definition cur_step (c : option str * option str) (op : mixer_op) : option str * option str :=
  match op with
  | MSetKey k => if len k =? 16 then (Some k, snd c) else c
  | MSetTA t => if len t =? 6 then (fst c, Some t) else c
  | _ => c
  end.

Lemma newKey_spec m pn : inv m ->
  inv (fst (mixer_newKey Sb m pn)) /\ m_tk (fst (mixer_newKey Sb m pn)) = m_tk m /\ m_ta (fst (mixer_newKey Sb m pn)) = m_ta m /\
  snd (mixer_newKey Sb m pn) =
    match m_tk m, m_ta m with
    | Some tk, Some ta => if len pn =? 6 then Ok (phase2KeyMixing Sb tk (phase1KeyMixing Sb tk ta pn) pn) else Raise AssertionError
    | _, _ => Raise AssertionError
    end.
Proof.
  intros (L & U & P). unfold mixer_newKey, mixer_setPnBytes.
  destruct m as [[tk|] [ta|] pn0 up p1]; cbn [m_tk m_ta m_pn m_upper m_phase1] in *;
    try (cbn [fst snd m_tk m_ta]; unfold inv; cbn [m_tk m_ta m_pn m_upper m_phase1]; now auto).
  destruct (len pn =? 6) eqn:L6; cbn [m_tk m_ta m_pn m_upper m_phase1];
    [|cbn [fst snd m_tk m_ta]; unfold inv; cbn [m_tk m_ta m_pn m_upper m_phase1]; now auto].
  apply Z.eqb_eq in L6. destruct (str_eqb (last4 pn) up) eqn:EU; cbn [negb m_phase1 m_pn].
  - apply str_eqb_eq in EU. rewrite P. cbn [fst snd m_tk m_ta].
    rewrite <- (phase1_last4 tk ta pn pn0) by congruence.
    unfold inv; cbn [m_tk m_ta m_pn m_upper m_phase1].
    split; [|auto]. split; [auto|]. split; [congruence|]. reflexivity.
  - cbn [fst snd m_tk m_ta]. unfold inv; cbn [m_tk m_ta m_pn m_upper m_phase1]. auto.
Qed.

Lemma step_inv m op : no_setPn op -> inv m ->
  inv (fst (mixer_step Sb m op)) /\
  (m_tk (fst (mixer_step Sb m op)), m_ta (fst (mixer_step Sb m op))) = cur_step (m_tk m, m_ta m) op.
Proof.
  intros Hop I. destruct op as [k|t|pn|pn]; cbn [no_setPn] in Hop; [| | |contradiction]; cbn [mixer_step cur_step fst snd].
  - unfold mixer_setKey. destruct (len k =? 16); cbn [negb fst m_tk m_ta]; [|auto]. split; [|auto].
    destruct I as (L & U & P). unfold inv; cbn [m_tk m_ta m_pn m_upper m_phase1]. destruct (m_ta m); auto.
  - unfold mixer_setTA. destruct (len t =? 6); cbn [negb fst m_tk m_ta]; [|auto]. split; [|auto].
    destruct I as (L & U & P). unfold inv; cbn [m_tk m_ta m_pn m_upper m_phase1]. destruct (m_tk m); auto.
  - destruct (newKey_spec m pn I) as (A & -> & -> & _). auto.
Qed.
Lemma run_inv ops : Forall no_setPn ops -> forall m, inv m ->
  inv (mixer_run Sb m ops) /\
  (m_tk (mixer_run Sb m ops), m_ta (mixer_run Sb m ops)) = fold_left cur_step ops (m_tk m, m_ta m).
Proof.
  induction 1 as [|op ops Hop Hops IH]; intros m I; cbn [mixer_run fold_left]; [auto|].
  destruct (step_inv m op Hop I) as (I' & E). destruct (IH _ I') as (A & C). split; [exact A|]. now rewrite C, E.
Qed.

Lemma cache_transparent tk ta pn0 m ops pn : mixer_new Sb tk ta pn0 = Ok m -> Forall no_setPn ops ->
  snd (mixer_newKey Sb (mixer_run Sb m ops) pn) =
    match fold_left cur_step ops (tk, ta) with
    | (Some tk, Some ta) => if len pn =? 6 then Ok (phase2KeyMixing Sb tk (phase1KeyMixing Sb tk ta pn) pn) else Raise AssertionError
    | _ => Raise AssertionError
    end.
Proof.
  intros N F. destruct (new_inv _ _ _ _ N) as (I & Et & Ea). destruct (run_inv ops F m I) as (I' & E).
  rewrite Et, Ea in E. rewrite <- E. destruct (newKey_spec _ pn I') as (_ & _ & _ & ->). now destruct (m_tk _), (m_ta _).
Qed.
End S.

(** ** agreement with IEEE 802.11i *)
Lemma mk16_tk16 tk i j : j = (i + 1)%nat -> at_ tk j * 256 + at_ tk i = tk16 tk i.
Proof. intros ->. unfold tk16, Mk16, at_. lia. Qed.
Lemma tk16_w l i : octets l -> w16 (tk16 l i).
Proof. intros H. rewrite <- (mk16_tk16 l i (i + 1)) by auto. now apply mk16_w. Qed.

Lemma all_octets (P : Z -> bool) : forallb P (map Z.of_nat (seq 0 256)) = true -> forall x, 0 <= x < 256 -> P x = true.
Proof.
  intros H x Hx. rewrite forallb_forall in H. apply H. apply in_map_iff. exists (Z.to_nat x). split; [lia|].
  apply in_seq. lia.
Qed.
Lemma sbox0_table i : 0 <= i < 256 -> tkipSbox0 sbox i = tkip_table i.
Proof. intros H. apply Z.eqb_eq. revert i H. apply all_octets. vm_compute. reflexivity. Qed.
Lemma sbox1_table i : 0 <= i < 256 -> tkipSbox1 sbox i = swap16 (tkip_table i).
Proof. intros H. apply Z.eqb_eq. revert i H. apply all_octets. vm_compute. reflexivity. Qed.

Lemma S_sub16 x : S sbox x = sub16 (x mod 2 ^ 16).
Proof.
  unfold S, sub16, Lo8, Hi8. change 0x00FF with (2 ^ 8 - 1). rewrite !land_ones_mod, Z.shiftr_div_pow2 by lia.
  rewrite sbox0_table, sbox1_table by (apply Z.mod_pos_bound; lia).
  change (2 ^ 8) with 256. change (2 ^ 16) with 65536.
  replace ((x mod 65536) mod 256) with (x mod 256) by lia. replace (x mod 65536 / 256) with (x / 256 mod 256) by lia. reflexivity.
Qed.
Lemma S_sub16' x : w16 x -> S sbox x = sub16 x.
Proof. intros H. rewrite S_sub16. now rewrite Z.mod_small. Qed.
Lemma w16_lxor x y : w16 x -> w16 y -> w16 (Z.lxor x y).
Proof. unfold w16. intros. apply lxor_lt_pow2; auto; lia. Qed.
Lemma rotR1_spec x : w16 x -> rotR1 x = RotR1 x.
Proof.
  intros H. unfold rotR1, RotR1, w16 in *. change 0x7FFF with (2 ^ 15 - 1).
  replace (Z.land x 1) with (x mod 2) by (symmetry; apply (land_ones_mod x 1); lia).
  rewrite !land_ones_mod, Z.shiftr_div_pow2, Z.shiftl_mul_pow2 by lia.
  change (2 ^ 1) with 2. change (2 ^ 16) with 65536 in *.
  rewrite (Z.mod_small (x / 2)) by (change (2 ^ 15) with 32768; lia).
  rewrite Z.lxor_comm, Z.add_comm. rewrite Z.lxor_lor.
  - apply lor_disjoint_add; change (2 ^ 15) with 32768; lia.
  - apply Z.bits_inj'. intros i Hi. rewrite Z.land_spec, Z.bits_0.
    destruct (Z.lt_ge_cases i 15).
    + rewrite Z.mul_pow2_bits_low by lia. reflexivity.
    + rewrite (testbit_small (x / 2) 15 i) by (try (change (2 ^ 15) with 32768); lia). apply andb_false_r.
Qed.

Lemma phase1_round_ieee tk i p : octets tk -> w16t p -> phase1_round sbox tk (Z.of_nat i) p = ieee_p1_round tk i p.
Proof.
  intros Ht. destruct p as [[[[p0 p1] p2] p3] p4]. intros (W0 & W1 & W2 & W3 & W4).
  unfold phase1_round, ieee_p1_round. cbv zeta.
  replace (Z.to_nat (2 * Z.land (Z.of_nat i) 1)) with (2 * (i mod 2))%nat.
  2:{ change 1 with (2 ^ 1 - 1). rewrite land_ones_mod by lia. change (2 ^ 1) with 2.
      change 2 with (Z.of_nat 2) at 2. rewrite <- Nat2Z.inj_mod. lia. }
  set (j := (2 * (i mod 2))%nat). clearbody j.
  rewrite !(mk16_tk16 tk (j + 0) (j + 1)), !(mk16_tk16 tk j (j + 1)), (mk16_tk16 tk (j + 4) (j + 5)),
    (mk16_tk16 tk (j + 8) (j + 9)), (mk16_tk16 tk (j + 12) (j + 13)) by lia.
  rewrite !(Nat.add_comm j), Nat.add_0_l.
  assert (T : forall k, w16 (tk16 tk k)) by (intros; now apply tk16_w).
  assert (A : forall x y, Z.land (x + y) 65535 = add16 x y) by (intros; apply land16).
  assert (Wa : forall x y, w16 (add16 x y)) by (intros; rewrite <- A; apply land16_w).
  rewrite (S_sub16' (Z.lxor p4 (tk16 tk j))) by auto using w16_lxor. rewrite (A p0). set (t0 := add16 p0 _). assert (w16 t0) by apply Wa.
  rewrite (S_sub16' (Z.lxor t0 (tk16 tk (4 + j)))) by auto using w16_lxor. rewrite (A p1). set (t1 := add16 p1 _). assert (w16 t1) by apply Wa.
  rewrite (S_sub16' (Z.lxor t1 (tk16 tk (8 + j)))) by auto using w16_lxor. rewrite (A p2). set (t2 := add16 p2 _). assert (w16 t2) by apply Wa.
  rewrite (S_sub16' (Z.lxor t2 (tk16 tk (12 + j)))) by auto using w16_lxor. rewrite (A p3). set (t3 := add16 p3 _). assert (w16 t3) by apply Wa.
  rewrite (S_sub16' (Z.lxor t3 (tk16 tk j))) by auto using w16_lxor.
  f_equal. rewrite A. unfold add16. now rewrite Zplus_mod_idemp_l.
Qed.
Lemma phase1_ieee tk ta pn : octets tk -> octets ta -> octets pn ->
  phase1KeyMixing sbox tk ta pn = ieee_phase1 tk ta pn.
Proof.
  intros Ht Ha Hp. unfold phase1KeyMixing, ieee_phase1. cbv zeta.
  rewrite (mk16_tk16 pn 2 3), (mk16_tk16 pn 4 5), (mk16_tk16 ta 0 1), (mk16_tk16 ta 2 3), (mk16_tk16 ta 4 5) by lia.
  change [0; 1; 2; 3; 4; 5; 6; 7] with (map Z.of_nat (seq 0 8)).
  assert (W : w16t (tk16 pn 2, tk16 pn 4, tk16 ta 0, tk16 ta 2, tk16 ta 4)) by (unfold w16t; auto 6 using tk16_w).
  revert W. generalize (tk16 pn 2, tk16 pn 4, tk16 ta 0, tk16 ta 2, tk16 ta 4). generalize (seq 0 8).
  intros l. induction l as [|i l IH]; intros p W; cbn [map fold_left]; [reflexivity|].
  rewrite phase1_round_ieee by auto. apply IH. rewrite <- phase1_round_ieee by auto. apply phase1_round_w.
Qed.

Lemma phase2_ieee tk p pn : octets tk -> octets pn -> w16t p ->
  skipn 3 (phase2KeyMixing sbox tk p pn) = skipn 3 (ieee_phase2 tk p pn).
Proof.
  intros Ht Hp. destruct p as [[[[p0 p1] p2] p3] p4]. intros (W0 & W1 & W2 & W3 & W4).
  unfold phase2KeyMixing, ieee_phase2. cbv zeta. cbn [skipn app].
  rewrite (mk16_tk16 tk 0 1), (mk16_tk16 tk 2 3), (mk16_tk16 tk 4 5), (mk16_tk16 tk 6 7), (mk16_tk16 tk 8 9),
   (mk16_tk16 tk 10 11), (mk16_tk16 tk 12 13), (mk16_tk16 tk 14 15) by lia.
  replace (p4 + at_ pn 1 * 256 + at_ pn 0) with (p4 + tk16 pn 0) by (rewrite <- (mk16_tk16 pn 0 1) by lia; lia).
  assert (T : forall k, w16 (tk16 tk k)) by (intros; now apply tk16_w).
  assert (A : forall x y, Z.land (x + y) 65535 = add16 x y) by (intros; apply land16).
  assert (Wa : forall x y, w16 (add16 x y)) by (intros; rewrite <- A; apply land16_w).
  assert (S5 : S sbox (Z.lxor (p4 + tk16 pn 0) (tk16 tk 0)) = sub16 (Z.lxor (add16 p4 (tk16 pn 0)) (tk16 tk 0))).
  { rewrite S_sub16, lxor_mod_pow2 by lia. rewrite (Z.mod_small (tk16 tk 0)) by apply T. reflexivity. }
  rewrite S5. rewrite (A p0). set (t0 := add16 p0 _). assert (w16 t0) by apply Wa.
  rewrite (S_sub16' (Z.lxor t0 (tk16 tk 2))) by auto using w16_lxor. rewrite (A p1). set (t1 := add16 p1 _). assert (w16 t1) by apply Wa.
  rewrite (S_sub16' (Z.lxor t1 (tk16 tk 4))) by auto using w16_lxor. rewrite (A p2). set (t2 := add16 p2 _). assert (w16 t2) by apply Wa.
  rewrite (S_sub16' (Z.lxor t2 (tk16 tk 6))) by auto using w16_lxor. rewrite (A p3). set (t3 := add16 p3 _). assert (w16 t3) by apply Wa.
  rewrite (S_sub16' (Z.lxor t3 (tk16 tk 8))) by auto using w16_lxor. rewrite (A p4 (sub16 (Z.lxor t3 _))). set (t4 := add16 p4 (sub16 (Z.lxor t3 _))). assert (w16 t4) by apply Wa.
  rewrite (S_sub16' (Z.lxor t4 (tk16 tk 10))) by auto using w16_lxor. rewrite (A (p4 + tk16 pn 0)).
  assert (E5 : add16 (p4 + tk16 pn 0) (sub16 (Z.lxor t4 (tk16 tk 10))) = add16 (add16 p4 (tk16 pn 0)) (sub16 (Z.lxor t4 (tk16 tk 10)))).
  { unfold add16. now rewrite Zplus_mod_idemp_l. }
  rewrite E5. set (t5 := add16 (add16 p4 _) _). assert (w16 t5) by apply Wa.
  rewrite (rotR1_spec (Z.lxor t5 (tk16 tk 12))) by auto using w16_lxor. rewrite (A t0). set (u0 := add16 t0 _). assert (w16 u0) by apply Wa.
  rewrite (rotR1_spec (Z.lxor u0 (tk16 tk 14))) by auto using w16_lxor. rewrite (A t1). set (u1 := add16 t1 _). assert (w16 u1) by apply Wa.
  rewrite (rotR1_spec u1) by auto. rewrite (A t2). set (u2 := add16 t2 _). assert (w16 u2) by apply Wa.
  rewrite (rotR1_spec u2) by auto. rewrite (A t3). set (u3 := add16 t3 _). assert (w16 u3) by apply Wa.
  rewrite (rotR1_spec u3) by auto. rewrite (A t4). set (u4 := add16 t4 _). assert (w16 u4) by apply Wa.
  rewrite (rotR1_spec u4) by auto. rewrite (A t5). set (u5 := add16 t5 _). assert (w16 u5) by apply Wa.
  assert (LL8 : forall x, Z.land x 255 = Lo8 x) by (intros; apply (land_ones_mod x 8); lia).
  assert (HH8 : forall x, w16 x -> Lo8 (Z.shiftr x 8) = Hi8 x).
  { intros x Hx. unfold Lo8, Hi8, w16 in *. rewrite Z.shiftr_div_pow2 by lia. change (2 ^ 8) with 256. apply Z.mod_small.
    change (2 ^ 16) with 65536 in Hx. lia. }
  f_equal.
  - rewrite Z.land_comm, LL8, Z.shiftr_div_pow2 by lia. reflexivity.
  - cbn [flat_map app]. rewrite !LL8, !HH8 by auto. reflexivity.
Qed.

Lemma octet_list_len tk p pn : List.length (phase2KeyMixing sbox tk p pn) = 16%nat.
Proof. now destruct p as [[[[p0 p1] p2] p3] p4]. Qed.
Lemma first3_model tk p pn : firstn 3 (phase2KeyMixing sbox tk p pn) = [at_ pn 0; Z.land (Z.lor (at_ pn 0) 0x20) 0x7F; at_ pn 1].
Proof. now destruct p as [[[[p0 p1] p2] p3] p4]. Qed.
Lemma first3_ieee tk p pn : firstn 3 (ieee_phase2 tk p pn) = [at_ pn 1; Z.land (Z.lor (at_ pn 1) 0x20) 0x7F; at_ pn 0].
Proof. now destruct p as [[[[p0 p1] p2] p3] p4]. Qed.

Lemma mix_ieee tk ta pn : octets tk -> octets ta -> octets pn ->
  skipn 3 (phase2KeyMixing sbox tk (phase1KeyMixing sbox tk ta pn) pn) = skipn 3 (ieee_tkip tk ta pn) /\
  (phase2KeyMixing sbox tk (phase1KeyMixing sbox tk ta pn) pn = ieee_tkip tk ta pn <-> at_ pn 0 = at_ pn 1).
Proof.
  intros Ht Ha Hp. unfold ieee_tkip. rewrite phase1_ieee by auto.
  assert (W : w16t (ieee_phase1 tk ta pn)) by (rewrite <- phase1_ieee by auto; now apply phase1_w).
  pose proof (phase2_ieee tk _ pn Ht Hp W) as E. split; [exact E|]. split.
  - intros F. apply (f_equal (firstn 3)) in F. rewrite first3_model, first3_ieee in F. congruence.
  - intros F. rewrite <- (firstn_skipn 3 (phase2KeyMixing _ _ _ _)), <- (firstn_skipn 3 (ieee_phase2 _ _ _)).
    now rewrite E, first3_model, first3_ieee, F.
Qed.

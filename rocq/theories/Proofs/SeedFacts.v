(** The seeds made by the key mixer are RC4 keys of 16 octets whose second octet is restricted (C106) *)
From Coq Require Import ZArith List Bool Lia.
From Verif Require Import Proofs.Tac Model.Py Model.Michael Proofs.EdgeFacts.
Import ListNotations.
Local Open Scope Z_scope.

Lemma land_octet x : 0 <= Z.land x 0xFF < 256.
Proof. change 0xFF with (Z.ones 8). rewrite Z.land_ones by lia. apply Z.mod_pos_bound. lia. Qed.
Lemma second_octet x : let y := Z.land (Z.lor x 0x20) 0x7F in 0 <= y < 128 /\ Z.testbit y 5 = true /\ forall i, 0 <= i < 7 -> i <> 5 -> Z.testbit y i = Z.testbit x i.
Proof.
  cbv zeta. split; [change 0x7F with (Z.ones 7); rewrite Z.land_ones by lia; apply Z.mod_pos_bound; lia|]. split.
  - rewrite Z.land_spec, Z.lor_spec. change (Z.testbit 0x20 5) with true. change (Z.testbit 0x7F 5) with true. now rewrite orb_true_r.
  - intros i I N. rewrite Z.land_spec, Z.lor_spec. replace (Z.testbit 0x7F i) with true by (change 0x7F with (Z.ones 7); now rewrite Z.ones_spec_low by lia).
    replace (Z.testbit 0x20 i) with false; [now rewrite orb_false_r, andb_true_r|]. change 0x20 with (2 ^ 5). symmetry. apply Z.pow2_bits_false. lia.
Qed.
Lemma seed_shape Sbox tk p1k pn : exists w v, length v = 12%nat /\ octets v /\ 0 <= w < 256 /\
  phase2KeyMixing Sbox tk p1k pn = [at_ pn 0; Z.land (Z.lor (at_ pn 0) 0x20) 0x7F; at_ pn 1; w] ++ v.
Proof.
  destruct p1k as ((((k0, k1), k2), k3), k4). unfold phase2KeyMixing.
  eexists. eexists. split; [|split; [|split; [|reflexivity]]].
  - reflexivity.
  - cbn [flat_map app]. repeat (constructor; [apply land_octet|]). constructor.
  - rewrite Z.land_comm. apply land_octet.
Qed.
Lemma newKey_form Sbox m pn seed : snd (mixer_newKey Sbox m pn) = Ok seed -> len pn = 6 /\ exists tk p1k, seed = phase2KeyMixing Sbox tk p1k pn.
Proof.
  unfold mixer_newKey. destruct (m_ta m) as [ta|]; [|discriminate]. destruct (m_tk m) as [tk|]; [|discriminate]. unfold mixer_setPnBytes.
  destruct (len pn =? 6) eqn:L; [|discriminate]. apply Z.eqb_eq in L. cbn [m_pn m_upper m_tk m_ta m_phase1]. destruct (negb _); cbn [m_phase1 m_pn snd].
  - intros E. split; [exact L|]. exists tk. eexists. assert (forall a b : str, Ok a = Ok b -> b = a) as I by (intros; congruence). apply I, E.
  - destruct (m_phase1 m) as [p1|]; [|discriminate]. cbn [snd]. intros E. split; [exact L|]. exists tk, p1. assert (forall a b : str, Ok a = Ok b -> b = a) as I by (intros; congruence). apply I, E.
Qed.
Lemma c106_seed : forall Sbox m pn seed, octets pn -> snd (mixer_newKey Sbox m pn) = Ok seed ->
  octets seed /\ len seed = 16 /\ nth 0 seed 0 = nth 0 pn 0 /\ nth 2 seed 0 = nth 1 pn 0 /\
  32 <= nth 1 seed 0 <= 127 /\ Z.testbit (nth 1 seed 0) 5 = true /\
  (forall i, 0 <= i < 7 -> i <> 5 -> Z.testbit (nth 1 seed 0) i = Z.testbit (nth 0 pn 0) i).
Proof.
  intros Sbox m pn seed O E. apply newKey_form in E as (L & tk & p1k & ->). destruct (seed_shape Sbox tk p1k pn) as (w & v & LV & OV & W & ->).
  assert (N : forall i, (i < 6)%nat -> 0 <= nth i pn 0 < 256).
  { intros i I. unfold octets in O. rewrite Forall_forall in O. apply O, nth_In. unfold len in L. lia. }
  destruct (second_octet (at_ pn 0)) as (B1 & B2 & B3). unfold at_ in *. cbn [app nth].
  set (y := Z.land (Z.lor (nth 0 pn 0) 32) 127) in *.
  split; [apply Forall_cons; [apply N; lia|]; apply Forall_cons; [unfold is_octet; lia|]; apply Forall_cons; [apply N; lia|]; apply Forall_cons; [exact W|exact OV]|].
  split; [unfold len; cbn [length]; rewrite LV; reflexivity|]. split; [reflexivity|]. split; [reflexivity|]. split; [|split; [exact B2|exact B3]].
  split; [|lia]. apply Z.nlt_ge. intros S32. assert (Z.testbit y 5 = false); [|congruence]. rewrite Z.testbit_false by lia. rewrite Z.div_small; [reflexivity|]. change (2 ^ 5) with 32. lia.
Qed.

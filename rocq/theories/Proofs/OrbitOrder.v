(** The orbits that the package computes determine the order of a permutation (C103) *)
From Coq Require Import Permutation ZArith List Bool Lia.
From Verif Require Import Proofs.Tac Model.Py Model.Analysis Model.SboxTables Spec.AnalysisSpec Proofs.AnalysisFacts.
Import ListNotations.
Local Open Scope Z_scope.

Lemma image_add p a b x : image p (a + b) x = image p a (image p b x).
Proof. induction a as [|a IH]; [reflexivity|]. cbn [Nat.add image]. now rewrite IH. Qed.
Lemma image_mul p m q x : image p m x = x -> image p (q * m) x = x.
Proof. intros E. induction q as [|q IH]; [reflexivity|]. cbn [Nat.mul]. now rewrite image_add, IH. Qed.
Lemma orbit_period p x c k : orbit_of p x c -> (image p k x = x <-> Nat.divide (length c) k).
Proof.
  intros (NE & P & L & _). assert (0 < length c)%nat by (destruct c; [contradiction|cbn; lia]). split.
  - intros E. apply Nat.mod_divide; [lia|]. pose proof (Nat.mod_upper_bound k (length c) ltac:(lia)). destruct (Nat.eq_dec (k mod length c) 0) as [|N]; [assumption|]. exfalso.
    apply (L (k mod length c)%nat); [lia|]. rewrite (Nat.div_mod k (length c)) in E by lia. rewrite (Nat.mul_comm (length c)), Nat.add_comm, image_add in E. now rewrite (image_mul _ _ _ _ P) in E.
  - intros (q & ->). now apply image_mul.
Qed.
Lemma c103_order : forall p k, is_permutation p -> exists v, orbit_start_and_length p = Ok v /\
  ((forall x, 0 <= x < Z.of_nat (length p) -> image p k x = x) <-> forall s m, In (s, m) v -> (m | Z.of_nat k)).
Proof.
  intros p k H. destruct (c75_orbits p H) as (d & E & ND & O & PM). destruct (c75_lengths p H) as (d' & v & E' & EV & V & _). rewrite E in E'. injection E' as <-.
  exists v. split; [exact EV|]. split.
  - intros F s m I. apply V in I as (c & I & ->). destruct (O s c I) as (S & OC & _). destruct (proj1 (orbit_period p s c k OC) (F s S)) as (q & ->). exists (Z.of_nat q). lia.
  - intros F x X. assert (I : In x (concat (map snd d))).
    { eapply Permutation_in; [symmetry; exact PM|]. apply in_map_iff. exists (Z.to_nat x). split; [lia|]. apply in_seq. lia. }
    apply in_concat in I as (c & C & XC). apply in_map_iff in C as ((s, c') & <- & I). cbn [snd] in XC. destruct (O s c' I) as (S & OC & _).
    assert (D : Nat.divide (length c') k).
    { destruct (F s (Z.of_nat (length c'))) as (q & Q); [apply V; eauto|]. exists (Z.to_nat q). assert (0 < length c')%nat by (destruct c'; [contradiction|cbn; lia]). nia. }
    apply (orbit_period p s c' k OC) in D. destruct OC as (_ & _ & _ & N). apply In_nth with (d := 0) in XC as (j & J & <-). rewrite (N j J), <- image_add, Nat.add_comm, image_add. now rewrite D.
Qed.
Fixpoint lcms (v : list (Z * Z)) : Z := match v with [] => 1 | (_, m) :: t => Z.lcm m (lcms t) end.
Lemma lcms_ok v k : (lcms v | k) <-> forall s m, In (s, m) v -> (m | k).
Proof.
  induction v as [|(s, m) v IH]; cbn [lcms In]; [split; [contradiction|intros _; apply Z.divide_1_l]|]. split.
  - intros D s' m' [Q|Q]; [injection Q as <- <-; eapply Z.divide_trans; [apply Z.divide_lcm_l|exact D]|]. apply (proj1 IH) with s'; [|exact Q]. eapply Z.divide_trans; [apply Z.divide_lcm_r|exact D].
  - intros H. apply Z.lcm_least; [apply (H s); now left|]. apply IH. intros s' m' Q. apply (H s'). now right.
Qed.
Definition perm_check (l : list Z) : bool :=
  forallb (fun v => (0 <=? v) && (v <? Z.of_nat (length l))) l && (fix nd l := match l with [] => true | x :: t => negb (existsb (Z.eqb x) t) && nd t end) l.
Lemma perm_ok l : perm_check l = true -> is_permutation l.
Proof.
  intros H. apply andb_true_iff in H as (R & D). split.
  - clear R. induction l as [|x t IH]; [constructor|]. apply andb_true_iff in D as (D & D'). constructor; [|now apply IH]. intros I. apply negb_true_iff in D.
    assert (existsb (Z.eqb x) t = true) by (apply existsb_exists; exists x; split; [exact I|apply Z.eqb_refl]). congruence.
  - apply Forall_forall. intros v V. rewrite forallb_forall in R. specialize (R v V). lia.
Qed.
Lemma order_of p n v : perm_check p = true -> orbit_start_and_length p = Ok v -> lcms v = n -> forall k, ((forall x, 0 <= x < Z.of_nat (length p) -> image p k x = x) <-> (n | Z.of_nat k)).
Proof.
  intros P E L k. destruct (c103_order p k (perm_ok p P)) as (v' & E' & H). rewrite E in E'. injection E' as <-. rewrite <- L, lcms_ok. exact H.
Qed.
Lemma c103_aes : exists v, orbit_start_and_length aes_sbbytes = Ok v /\ map snd v = [59; 81; 87; 27; 2] /\
  forall k, ((forall x, 0 <= x < 256 -> image aes_sbbytes k x = x) <-> (277182 | Z.of_nat k)).
Proof.
  eexists. split; [vm_compute; reflexivity|]. split; [vm_compute; reflexivity|].
  eapply (order_of aes_sbbytes 277182); [vm_compute; reflexivity|vm_compute; reflexivity|vm_compute; reflexivity].
Qed.
Lemma c103_sms4 : exists v, orbit_start_and_length sms4_sbbytes = Ok v /\ map snd v = [120; 24; 56; 35; 9; 3; 6; 1; 2] /\
  forall k, ((forall x, 0 <= x < 256 -> image sms4_sbbytes k x = x) <-> (2520 | Z.of_nat k)).
Proof.
  eexists. split; [vm_compute; reflexivity|]. split; [vm_compute; reflexivity|].
  eapply (order_of sms4_sbbytes 2520); [vm_compute; reflexivity|vm_compute; reflexivity|vm_compute; reflexivity].
Qed.
Lemma c103_streebog : exists v, orbit_start_and_length streebog_sbbytes = Ok v /\ map snd v = [136; 35; 78; 7] /\
  forall k, ((forall x, 0 <= x < 256 -> image streebog_sbbytes k x = x) <-> (185640 | Z.of_nat k)).
Proof.
  eexists. split; [vm_compute; reflexivity|]. split; [vm_compute; reflexivity|].
  eapply (order_of streebog_sbbytes 185640); [vm_compute; reflexivity|vm_compute; reflexivity|vm_compute; reflexivity].
Qed.
Lemma c103_gost : exists v, orbit_start_and_length gost_pi = Ok v /\ map snd v = [243; 13] /\
  forall k, ((forall x, 0 <= x < 256 -> image gost_pi k x = x) <-> (3159 | Z.of_nat k)).
Proof.
  eexists. split; [vm_compute; reflexivity|]. split; [vm_compute; reflexivity|].
  eapply (order_of gost_pi 3159); [vm_compute; reflexivity|vm_compute; reflexivity|vm_compute; reflexivity].
Qed.
Lemma image_range p k x : is_permutation p -> 0 <= x < Z.of_nat (length p) -> 0 <= image p k x < Z.of_nat (length p).
Proof.
  intros (_ & R) X. induction k as [|k IH]; [exact X|]. cbn [image]. rewrite Forall_forall in R. apply R. apply nth_In. lia.
Qed.
Lemma c103_inverse : forall p n k j x y, is_permutation p -> (forall z, 0 <= z < Z.of_nat (length p) -> image p n z = z) -> (j + k = n)%nat ->
  0 <= x < Z.of_nat (length p) -> 0 <= y < Z.of_nat (length p) -> (image p k x = y <-> image p j y = x).
Proof.
  intros p n k j x y P F E X Y. split; intros <-.
  - rewrite <- image_add, E. now apply F.
  - rewrite <- image_add, Nat.add_comm, E. now apply F.
Qed.

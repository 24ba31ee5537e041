(** Facts about the table of built-in curves that need no point arithmetic. *)
From Coq Require Import ZArith List Bool String Lia Znumtheory.
From Verif Require Import Model.Py Model.Ecc Model.Curves Spec.CurveSpec.
Import ListNotations.
Local Open Scope Z_scope.

(** ** Identifiers *)
Definition id_of (c : curve_class) : string := match curve_id c with Ok s => s | Raise _ => EmptyString end.
Definition id_ok (c : curve_class) : bool := match curve_id c with Ok _ => true | Raise _ => false end.
Definition name_eqb (c d : curve_class) : bool := String.eqb (cls_name c) (cls_name d).
Definition pair_ok (c d : curve_class) : bool :=
  implb (String.eqb (id_of c) (id_of d))
    (name_eqb c d
     || ((String.eqb (cls_name c) "SECP_256r1" && String.eqb (cls_name d) "SECP_521r1")
         || (String.eqb (cls_name c) "SECP_521r1" && String.eqb (cls_name d) "SECP_256r1"))).

Lemma ids_ok : forallb id_ok module_classes = true.
Proof. vm_compute. reflexivity. Qed.
Lemma pairs_ok : forallb (fun c => forallb (pair_ok c) module_classes) module_classes = true.
Proof. vm_compute. reflexivity. Qed.

Lemma nodup_names : NoDup (map cls_name module_classes).
Proof.
  assert (H : forall l : list string, (fix nd (l : list string) := match l with [] => true | a :: r => negb (existsb (String.eqb a) r) && nd r end) l = true -> NoDup l).
  { induction l as [|a r IH]; intros H; [constructor|].
    apply andb_prop in H. destruct H as [H1 H2]. constructor; [|exact (IH H2)].
    intros HI. apply negb_true_iff in H1. apply Bool.not_true_iff_false in H1. apply H1.
    apply existsb_exists. exists a. split; [exact HI|apply String.eqb_refl]. }
  apply H. vm_compute. reflexivity.
Qed.

Lemma in_module : forall n, forall c, nth_error module_classes n = Some c -> In c module_classes.
Proof. intros n c. apply nth_error_In. Qed.

Lemma same_name c d : In c module_classes -> In d module_classes -> cls_name c = cls_name d -> c = d.
Proof.
  assert (H : forall l, NoDup (map cls_name l) -> forall c d, In c l -> In d l -> cls_name c = cls_name d -> c = d).
  { induction l as [|a r IH]; cbn [map]; intros HN c0 d0 [] ; try contradiction.
    - intros [E|HI] HE; [congruence|]. inversion HN as [|? ? H1 H2]; subst. exfalso. apply H1. rewrite HE. apply in_map. exact HI.
    - intros [E|HI] HE; inversion HN as [|? ? H1 H2]; subst.
      + exfalso. apply H1. rewrite <- HE. apply in_map. assumption.
      + apply IH; assumption. }
  apply H. exact nodup_names.
Qed.

(** allCurves are classes of the module *)
Lemma insert_in c l x : In x (insert_class c l) <-> x = c \/ In x l.
Proof.
  induction l as [|d r IH]; cbn [insert_class In]; [intuition|].
  destruct (str_leb (cls_name c) (cls_name d)); cbn [In]; [intuition|]. rewrite IH. tauto.
Qed.
Lemma all_classes_in x : In x get_all_classes <-> In x module_classes.
Proof.
  unfold get_all_classes. generalize module_classes. intros l. induction l as [|c l IH]; cbn [fold_right]; [reflexivity|].
  rewrite insert_in, IH. cbn [In]. split; (intros [H|H]; [left; symmetry; exact H|right; exact H]).
Qed.
Lemma with_base_in b x : In x (classes_with_base b) <-> In x module_classes /\ cls_base x = b.
Proof.
  unfold classes_with_base. rewrite filter_In, all_classes_in, String.eqb_eq. reflexivity.
Qed.
Lemma allCurves_in x : In x allCurves <-> In x module_classes /\
  In (cls_base x) ["SmallWeierstrassCurveFp"; "KoblitzCurveFp"; "TwistedEdwardsCurveFp"; "EdwardsCurveFp"; "MontgomeryCurveFp"]%string.
Proof.
  unfold allCurves, smallWeierstrassCurves, koblitzCurves, twistedEdwardsCurves, edwardsCurves, montgomeryCurves.
  pose proof (with_base_in "SmallWeierstrassCurveFp" x) as H1. pose proof (with_base_in "KoblitzCurveFp" x) as H2.
  pose proof (with_base_in "TwistedEdwardsCurveFp" x) as H3. pose proof (with_base_in "EdwardsCurveFp" x) as H4.
  pose proof (with_base_in "MontgomeryCurveFp" x) as H5.
  revert H1 H2 H3 H4 H5. generalize (classes_with_base "SmallWeierstrassCurveFp") as l1, (classes_with_base "KoblitzCurveFp") as l2,
    (classes_with_base "TwistedEdwardsCurveFp") as l3, (classes_with_base "EdwardsCurveFp") as l4, (classes_with_base "MontgomeryCurveFp") as l5.
  generalize (In x module_classes). intros P l1 l2 l3 l4 l5 H1 H2 H3 H4 H5.
  rewrite !in_app_iff, H1, H2, H3, H4, H5. cbn [In]. intuition.
Qed.

Lemma c72_refuted : exists c d s, In c allCurves /\ In d allCurves /\ cls_name c <> cls_name d /\
  int_attr c "p" <> int_attr d "p" /\ curve_id c = Ok s /\ curve_id d = Ok s.
Proof.
  exists cls_SECP_256r1, cls_SECP_521r1, "secp256r1"%string.
  split; [apply allCurves_in; split; [apply (in_module 5); reflexivity|left; reflexivity]|].
  split; [apply allCurves_in; split; [apply (in_module 22); reflexivity|left; reflexivity]|].
  split; [discriminate|]. split; [vm_compute; discriminate|]. split; vm_compute; reflexivity.
Qed.

Lemma c72_only : forall c d s, In c module_classes -> In d module_classes ->
  curve_id c = Ok s -> curve_id d = Ok s ->
  c = d \/ (cls_name c = "SECP_256r1" /\ cls_name d = "SECP_521r1")%string
        \/ (cls_name c = "SECP_521r1" /\ cls_name d = "SECP_256r1")%string.
Proof.
  intros c d s Hc Hd Ec Ed.
  pose proof (proj1 (forallb_forall _ _) pairs_ok c Hc) as H. cbv beta in H.
  pose proof (proj1 (forallb_forall _ _) H d Hd) as K. unfold pair_ok, id_of in K. rewrite Ec, Ed, String.eqb_refl in K.
  cbn [implb] in K. apply orb_prop in K. destruct K as [K|K].
  - left. apply same_name; [exact Hc|exact Hd|]. apply String.eqb_eq. exact K.
  - right. apply orb_prop in K. destruct K as [K|K]; apply andb_prop in K; destruct K as [K1 K2];
      apply String.eqb_eq in K1; apply String.eqb_eq in K2; [left|right]; split; assumption.
Qed.

Lemma c72_defined : forall c, In c module_classes -> exists s, curve_id c = Ok s.
Proof.
  intros c Hc. pose proof (proj1 (forallb_forall _ _) ids_ok c Hc) as H. unfold id_ok in H.
  destruct (curve_id c) as [s|e]; [exists s; reflexivity|discriminate].
Qed.
Lemma c72_class_names : NoDup (map cls_name module_classes) /\ List.length module_classes = 45%nat /\ List.length allCurves = 40%nat.
Proof. split; [exact nodup_names|]. split; reflexivity. Qed.

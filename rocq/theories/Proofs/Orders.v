(** When the elements of an array are totally ordered. *)
From Verif.Proofs Require Export Reduce.
From Verif.Model Require Export Ieee Exact.
From Coq Require Import Floats.SpecFloat QArith Qcanon.
Local Open Scope Z_scope.

Lemma ordered_int {fo : FOps} (l : list val) : (forall x, x ∈ l -> exists z, x = VI z) -> ordered l.
Proof.
  intros H. split.
  - intros x y Hx Hy. destruct (H x Hx) as [a ->], (H y Hy) as [b ->]. simpl. lia.
  - intros x y z Hx Hy Hz. destruct (H x Hx) as [a ->], (H y Hy) as [b ->], (H z Hz) as [c ->]. simpl. lia.
Qed.

(** integers and floats are not mixed *)
Definition homogeneous {fo : FOps} (l : list val) : Prop :=
  forall x y, x ∈ l -> y ∈ l -> match x, y with VI _, VF _ | VF _, VI _ => False | _, _ => True end.

Lemma SFleb_total x y : x <> S754_nan -> y <> S754_nan -> SFleb x y = true \/ SFleb y x = true.
Proof.
  intros Hx Hy. unfold SFleb.
  destruct x as [s|s| |s m e], y as [s'|s'| |s' m' e']; try done; try destruct s; try destruct s'; simpl; auto.
  - rewrite (Z.compare_antisym e e'). destruct (Z.compare_spec e e'); simpl; auto.
    change (Pcompare m m' Eq) with (m ?= m')%positive. change (Pcompare m' m Eq) with (m' ?= m)%positive.
    rewrite (Pos.compare_antisym m m'). destruct (m ?= m')%positive; simpl; auto.
  - rewrite (Z.compare_antisym e e'). destruct (Z.compare_spec e e'); simpl; auto.
    change (Pcompare m m' Eq) with (m ?= m')%positive. change (Pcompare m' m Eq) with (m' ?= m)%positive.
    rewrite (Pos.compare_antisym m m'). destruct (m ?= m')%positive; simpl; auto.
Qed.
Lemma SFleb_trans x y z : SFleb x y = true -> SFleb y z = true -> SFleb x z = true.
Proof.
  unfold SFleb.
  destruct x as [s|s| |s m e], y as [s'|s'| |s' m' e'], z as [s''|s''| |s'' m'' e'']; try done;
    try destruct s; try destruct s'; try destruct s''; simpl; try done.
  all: idtac;
    change (Pos.compare_cont Eq m m') with (m ?= m')%positive;
    change (Pos.compare_cont Eq m' m'') with (m' ?= m'')%positive;
    change (Pos.compare_cont Eq m m'') with (m ?= m'')%positive.
  all: destruct (Z.compare_spec e e'), (Z.compare_spec e' e''), (Z.compare_spec e e''); try lia; try done;
    destruct (Pos.compare_spec m m'), (Pos.compare_spec m' m''), (Pos.compare_spec m m''); simpl; try lia; done.
Qed.
Lemma ordered_ieee (l : list (@val Ieee)) :
  (forall x : @val Ieee, x ∈ l -> x <> @VF Ieee S754_nan) ->
  homogeneous l ->
  ordered l.
Proof.
  intros H Hs. split.
  - intros x y Hx Hy. specialize (Hs x y Hx Hy). destruct x as [a|a], y as [b|b]; try done; simpl; [lia|].
    apply SFleb_total; intros E; subst; [by apply (H _ Hx)|by apply (H _ Hy)].
  - intros x y z Hx Hy Hz. specialize (Hs x y Hx Hy) as H1. specialize (Hs y z Hy Hz) as H2.
    destruct x as [a|a], y as [b|b], z as [c|c]; try done; simpl; [lia|]. apply SFleb_trans.
Qed.
Lemma ordered_exact (l : list (@val Exact)) :
  homogeneous l ->
  ordered l.
Proof.
  intros Hs. split.
  - intros x y Hx Hy. specialize (Hs x y Hx Hy). destruct x as [a|a], y as [b|b]; try done; simpl; [lia|].
    rewrite !Qle_bool_iff. destruct (Qlt_le_dec a b); [left; by apply Qlt_le_weak|by right].
  - intros x y z Hx Hy Hz. specialize (Hs x y Hx Hy) as H1. specialize (Hs y z Hy Hz) as H2.
    destruct x as [a|a], y as [b|b], z as [c|c]; try done; simpl; [lia|].
    rewrite !Qle_bool_iff. apply Qle_trans.
Qed.

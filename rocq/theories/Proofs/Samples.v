(** A concrete history on IEEE floats, for the examples beside the theorems. *)
From Verif.Proofs Require Export Api3.
From Verif.Model Require Export Ieee.
From Coq Require Import Floats.SpecFloat.

Definition chars (s : string) : list ascii := String.list_ascii_of_string s.
Definition f32 (z : Z) : val := VF (ieee_of_Z FT32 z).
Definition f64 (z : Z) : val := VF (ieee_of_Z FT64 z).

(** 0: i16 [2,3] = 1..6;  1: its view [:, ::-2] of shape [2,2];  2: f32 [2] = 10,20;
    3: i8 [2,2] = 0/1;  4: i32 [2,1];  5: the transpose of 0;  6: f64 [3] tracked;
    7: f64 [2,3];  8: a 0-dim f64 scalar 3 *)
Definition demo_ops : list op := [
  OFromBlob (map VI [1; 2; 3; 4; 5; 6]) [2; 3] I16;
  OSlice (Some 0%nat) (chars ":, ::-2");
  OFromBlob [f32 10; f32 20] [2] F32;
  OFromBlob (map VI [1; 0; 1; 1]) [2; 2] I8;
  OFromBlob (map VI [7; -8]) [2; 1] I32;
  OTranspose (Some 0%nat) 0 1;
  OFromBlob [f64 1; f64 2; f64 (-3)] [3] F64;
  ORequires (Some 6%nat) true;
  OFromBlob [f64 1; f64 2; f64 3; f64 4; f64 5; f64 6] [2; 3] F64;
  OScalar F64 (f64 3) ].
Definition demo : heap := Eval vm_compute in snd (run empty_heap demo_ops).

Definition rec (t : nat) : tensor :=
  match h_ten demo !! t with Some r => r | None => Ten I8 (Lay [] [] 0) 0 None false false None end.
Definition arr (t : nat) : list Z -> val := contents demo (rec t).

(** evaluate both sides of a closed equation; unlike [vm_compute] this does not
    normalise the types, which mention the whole FOps instance *)
Ltac vm := lazymatch goal with |- ?a = ?b => exact (@eq_refl _ b <: a = b) end.
Ltac demo_at := apply tensor_at_check; vm.
Ltac decide_it := lazymatch goal with |- ?P => refine (@bool_decide_eq_true_1 P _ _); vm end.

Lemma defined_check (e : list Z -> option val) ss :
  forallb (fun idx => match e idx with Some _ => true | None => false end) (indices ss) = true ->
  forall idx, in_range ss idx -> e idx = Some (match e idx with Some v => v | None => VI 0 end).
Proof.
  rewrite forallb_forall. intros H idx Hi. specialize (H idx).
  rewrite <- elem_of_list_In, elem_of_indices in H. specialize (H Hi). by destruct (e idx).
Qed.
Ltac shape_ok := first [ apply Forall_nil_2 | apply Forall_cons_2; [unfold two64; lia|shape_ok] ].
Ltac fits_ok := apply Z.leb_le; vm.

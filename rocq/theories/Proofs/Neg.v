(** Unary minus on IEEE floats. *)
From Verif.Proofs Require Export Api3.
From Verif.Model Require Export Ieee Api.
From Coq Require Import Floats.SpecFloat.
#[local] Existing Instance Ieee.

(** 0 - x is -x, except that it is +0 for both zeros *)
Definition minus (x : spec_float) : spec_float := match x with S754_zero _ => S754_zero false | _ => SFopp x end.
Lemma zero_minus p (x : F) : f_sub p (f_of_Z p 0) x = minus x.
Proof. by destruct p, x as [[]|[]| |]. Qed.
Lemma neg_float (h : heap) a ra va : tensor_at h a ra va -> floating (t_dt ra) = true -> fits (t_dt ra) (shape ra) ->
  exists t h' w, exec (ONeg (Some a)) h = (Ok (RHandle (Some t)), h') /\ new_tensor h h' t (t_dt ra) (shape ra) (t_rg ra) w /\
    forall idx, in_range (shape ra) idx -> exists x : spec_float, va idx = VF x /\
      w idx = VF (match x with S754_zero _ => S754_zero false | _ => SFopp x end).
Proof.
  intros Ha Hf Hfit. assert (dt_join I32 (t_dt ra) = t_dt ra) as Ej by (by destruct (t_dt ra)).
  destruct (neg_new' h a ra va Ha) as [Hok _]; [by rewrite Ej|]. rewrite Ej in Hok.
  assert (forall idx, in_range (shape ra) idx -> exists x, va idx = VF x) as Hv.
  { intros idx Hi. assert (has_ty (t_dt ra) (va idx)) as Ht by (by apply Ha). destruct (va idx) as [z|x]; [|by exists x].
    exfalso. apply has_ty_int in Ht as [Hx _]. congruence. }
  destruct (Hok (fun idx => match va idx with VF x => @VF Ieee (minus x) | VI z => VI z end)) as (t & h' & E & Hn).
  { intros idx Hi. destruct (Hv idx Hi) as [x ->]. unfold neg_elem. by rewrite zero_minus. }
  eexists t, h', _. split; [exact E|]. split; [exact Hn|]. intros idx Hi. destruct (Hv idx Hi) as [x Hx]. exists x. rewrite Hx. done.
Qed.

(** A cut in the program of ProgEx.v. *)
From Verif.Proofs Require Export Cut3 ProgEx.
From Verif.Model Require Export Exact Api.
#[local] Existing Instance Exact.

Definition cx_ops := ex_10 ++ cuts [7%nat].
Lemma cx_run : run (xafter ex_10) (cuts [7%nat]) = (Ok [Ok RUnit], xafter cx_ops).
Proof.
  destruct (cuts_run [7%nat] (xafter ex_10)) as (h1 & E & _).
  - intros y ->%elem_of_list_singleton. exists (xrec (xafter ex_10) 7). vm.
  - rewrite E. f_equal. destruct (program_run _ _ _ _ ex_10_ok) as (_ & rs & E0). unfold xafter, cx_ops. by rewrite (run_app _ _ _ _ _ _ _ E0 E).
Qed.
Lemma cx_closed : ~ open (xafter cx_ops) 10 7.
Proof.
  intros (Hb & _ & Ho). destruct (Ho 7%nat Hb (below_root _ _) ltac:(lia)) as (r & f & Hr & _ & Hg & _).
  assert (h_ten (xafter cx_ops) !! 7%nat = Some (xrec (xafter cx_ops) 7)) as E by vm. rewrite E in Hr. apply (inj Some) in Hr as <-.
  assert (t_rg (xrec (xafter cx_ops) 7) = false) as E' by vm. congruence.
Qed.
Definition kind_at (h : heap) (x : nat) : option (bkind * list nat) := (fun f => (gf_kind f, gf_in f)) <$> fn_of h x.
Lemma cx_fits : cut_fits (xafter cx_ops) 10.
Proof.
  intros x f Hb Hf Hk a Ha.
  assert (x ∈ [10; 9; 8; 7; 5; 2; 1; 0]%nat) as Hx by (revert Hb; apply below_closed; [mem|vm]).
  assert (kind_at (xafter cx_ops) x = Some (gf_kind f, gf_in f)) as Ek by (unfold kind_at; by rewrite Hf).
  assert (x = 2%nat \/ x = 7%nat \/ x ∈ [10; 9; 8; 5; 1; 0]%nat) as [->|[->|Hx']] by (repeat setoid_rewrite elem_of_cons in Hx; repeat setoid_rewrite elem_of_cons; tauto).
  - assert (kind_at (xafter cx_ops) 2 = Some (NoBack, [0%nat])) as E by vm. assert (gf_in f = [0%nat]) as Ei by congruence. rewrite Ei in Ha. apply elem_of_list_singleton in Ha as ->.
    exists (xrec (xafter cx_ops) 0). split; vm.
  - assert (kind_at (xafter cx_ops) 7 = Some (DivBack, [2%nat; 5%nat])) as E by vm. assert (gf_kind f = DivBack) as Ei by congruence. rewrite Ei in Hk. destruct Hk as [[Hk _]|[_ Ho]]; [discriminate Hk|].
    exfalso. exact (cx_closed Ho).
  - exfalso. clear Hx Hb Hf Ha. assert (match kind_at (xafter cx_ops) x with Some (NoBack, _) | Some (DivBack, _) => false | _ => true end = true) as E.
    { clear - Hx'. repeat setoid_rewrite elem_of_cons in Hx'. destruct Hx' as [->|[->|[->|[->|[->|[->|[]%elem_of_nil]]]]]]; vm. }
    rewrite Ek in E. destruct Hk as [[Hk _]|[Hk _]]; rewrite Hk in E; discriminate E.
Qed.

(** zero_grad. *)
From Verif.Proofs Require Export Track.
From Verif.Model Require Export Api.

Section with_fops.
Context {fo : FOps}.

Lemma zero_grad_none h t r : h_ten h !! t = Some r -> t_grad r = None ->
  exec (OZeroGrad (Some t)) h = (Ok RUnit, h).
Proof.
  intros Ht Hg. cbn [exec]. unfold deref, no_result, zero_grad. rewrite bind_ret.
  unfold bind, get_ten. by rewrite Ht, Hg.
Qed.
Lemma zero_grad_some h t r g gr cs : h_ten h !! t = Some r -> t_grad r = Some g -> h_ten h !! g = Some gr ->
  backed h gr cs ->
  exists h', exec (OZeroGrad (Some t)) h = (Ok RUnit, h') /\ h_ten h' = h_ten h /\
    (forall s, s <> t_sto gr -> h_sto h' !! s = h_sto h !! s) /\
    holds h' gr (fun _ => zero_val (t_dt gr)).
Proof.
  intros Ht Hg Hgr Hb. destruct Hb as ((b & Hs) & Hok & Hin & Hlt).
  cbn [exec]. unfold deref, no_result, zero_grad. rewrite bind_ret.
  unfold bind, get_ten. rewrite Ht, Hg, Hgr. unfold sto_zero, bind, get_sto. rewrite Hs. cbn.
  eexists. split; [done|]. cbn. split; [done|]. split. { intros s Hne. by apply list_lookup_insert_ne. }
  assert (Hl : (<[t_sto gr := Sto (t_dt gr) b (Some (map (fun _ => Some (zero_val (t_dt gr))) cs))]> (h_sto h)) !! t_sto gr
    = Some (Sto (t_dt gr) b (Some (map (fun _ => Some (zero_val (t_dt gr))) cs)))).
  { apply list_lookup_insert. by eapply lookup_lt_Some. }
  split.
  - exists (map (fun _ => Some (zero_val (t_dt gr))) cs). split; [by eexists|]. rewrite map_length. done.
  - intros idx Hi. split; [|by destruct (t_dt gr)]. specialize (Hin idx Hi). unfold elem, cells. cbn [h_sto]. rewrite Hl. cbn [sto_blob].
    destruct (Z.leb_spec 0 (pos (t_lay gr) idx)); [|lia].
    destruct (lookup_lt_is_Some_2 cs (Z.to_nat (pos (t_lay gr) idx))) as [c Hc]; [lia|].
    by rewrite list_lookup_fmap, Hc.
Qed.
End with_fops.

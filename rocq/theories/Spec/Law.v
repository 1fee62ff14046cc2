(** Laws that relate the results of several calls. *)
From Verif.Spec Require Export Calls View Reduce Cat Reshape.

Section with_fops.
Context {fo : FOps}.
(** the calls [ops] succeed, one after the other, and return the tensors [ts] *)
Definition yields (h : heap) (ops : list op) (ts : list nat) (h' : heap) : Prop :=
  run h ops = (Ok (map (fun t => Ok (RHandle (Some t))) ts), h').
(** the tensors [t] and [u] have the same dtype, shape and elements *)
Definition same_array (h : heap) (t u : nat) : Prop :=
  exists r s v, tensor_at h t r v /\ tensor_at h u s v /\ t_dt r = t_dt s /\ shape r = shape s.
(** the arithmetic of a call is undefined *)
Definition undefined (o : op) (h : heap) : Prop := exists u h', exec o h = (UB u, h') /\ arith_ub u.
(** strides that can be negated *)
Definition small_strides (r : tensor) : Prop := Forall (fun s => - 2 ^ 63 < s < 2 ^ 63) (strides (t_lay r)).
(** [a] holds the array [va] of the dtype [T] and has no empty dimension *)
Definition intensor (h : heap) (T : dtype) (a : nat) (ra : tensor) (va : list Z -> val) : Prop :=
  tensor_at h a ra va /\ t_dt ra = T /\ Forall (fun n => 0 < n) (shape ra).
End with_fops.

(** subscripts for the part of dimension [d] before index [k], and for the part from it on *)
Definition first_part (d : nat) (k : Z) : list sub := replicate d whole ++ [Range None (Some k) None].
Definition last_part (d : nat) (k : Z) : list sub := replicate d whole ++ [Range (Some k) None None].

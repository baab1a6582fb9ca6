(** * Concrete case: limits on a field of another program's account *)
From Verif Require Export DemoSign Scope.

(** program 86 writes the numbers [ns] one after the other into account 85 *)
Definition scoped_by (i : Z) (ns : list Z) : ctx :=
  call 30 [rw SWIG; rw WALLET; sg (K 14); ro (K 86); rw (K 85)]
    (d_sign i (into_bytes (map (fun n => i_ix 3 [4] ([1] ++ le_enc 8 n)) ns)) ++ ed 2).

Lemma same_frame E x y : beq x y = true -> ~ collision E x y.
Proof. intros H [N _]. apply beq_eq in H. contradiction. Qed.
Lemma others_none s i k :
  forallb (fun r => (r_id r =? i) || match perm 4 k (r_acts r) with None => true | _ => false end) (s_roles s) = true ->
  forall r, In r (s_roles s) -> r_id r <> i -> perm 4 k (r_acts r) = None.
Proof.
  intros H r I N. rewrite forallb_forall in H. specialize (H r I). apply orb_prop in H as [H|H]; [apply Z.eqb_eq in H; contradiction|].
  destruct (perm 4 k (r_acts r)); [discriminate|reflexivity].
Qed.
Lemma not_listed ms k : forallb (fun x => negb (beq k (m_key x))) ms = true -> ~ In k (map m_key ms).
Proof.
  intros H I. apply in_map_iff in I as (x & Q & I). rewrite forallb_forall in H. specialize (H x I). subst k.
  rewrite beq_refl in H. discriminate.
Qed.
Lemma once_fifth cx m0 m1 m2 m3 m : c_metas cx = [m0; m1; m2; m3; m] ->
  forallb (fun x => negb (beq (m_key m) (m_key x))) [m0; m1; m2; m3] = true -> listed_once cx m.
Proof. intros Q H. exists [m0; m1; m2; m3], []. split; [exact Q|]. split; [cbn; lia|]. apply not_listed. exact H. Qed.

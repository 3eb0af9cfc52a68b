(** Sums over finite maps. *)
From stdpp Require Import gmap.
From Verif Require Import Base.

Section msum.
Context {A : Type}.
Implicit Types (M : gmap Z A) (f g : A -> Z).

(** sum of [f] over all entries *)
Definition msum f M : Z := map_fold (fun _ m s => f m + s) 0 M.

Lemma msum_empty f : msum f ∅ = 0.
Proof. unfold msum. apply map_fold_empty. Qed.

Lemma msum_insert_new f M k m : M !! k = None -> msum f (<[k := m]> M) = f m + msum f M.
Proof.
  intros H. unfold msum. rewrite map_fold_insert_L; [reflexivity| |assumption].
  intros. lia.
Qed.

Lemma msum_delete f M k m : M !! k = Some m -> msum f M = f m + msum f (delete k M).
Proof.
  intros H. rewrite <- (insert_delete M k m H) at 1.
  apply msum_insert_new. apply lookup_delete.
Qed.

Lemma msum_insert f M k m m' :
  M !! k = Some m -> msum f (<[k := m']> M) = msum f M - f m + f m'.
Proof.
  intros H. rewrite <- insert_delete_insert.
  rewrite msum_insert_new by apply lookup_delete.
  rewrite (msum_delete f M k m H). lia.
Qed.

Lemma msum_le f g M : (forall k m, M !! k = Some m -> f m <= g m) -> msum f M <= msum g M.
Proof.
  induction M as [|k m M Hk IH] using map_ind; intros H.
  - rewrite !msum_empty. lia.
  - rewrite !msum_insert_new by assumption.
    specialize (IH ltac:(intros k' m' H'; apply (H k'); rewrite lookup_insert_ne; [assumption|congruence])).
    pose proof (H k m (lookup_insert _ _ _)). lia.
Qed.

Lemma msum_ext f g M : (forall k m, M !! k = Some m -> f m = g m) -> msum f M = msum g M.
Proof.
  intros H. apply Z.le_antisymm; apply msum_le; intros k m Hk; rewrite (H k m Hk); lia.
Qed.

Lemma msum_nonneg f M : (forall k m, M !! k = Some m -> 0 <= f m) -> 0 <= msum f M.
Proof.
  induction M as [|k m M Hk IH] using map_ind; intros H.
  - rewrite !msum_empty. lia.
  - rewrite !msum_insert_new by assumption.
    specialize (IH ltac:(intros k' m' H'; apply (H k'); rewrite lookup_insert_ne; [assumption|congruence])).
    pose proof (H k m (lookup_insert _ _ _)). lia.
Qed.

Lemma msum_ge f M k m :
  (forall k m, M !! k = Some m -> 0 <= f m) -> M !! k = Some m -> f m <= msum f M.
Proof.
  intros H Hk. rewrite (msum_delete f M k m Hk).
  assert (0 <= msum f (delete k M)); [|lia].
  apply msum_nonneg. intros k' m' H'. apply lookup_delete_Some in H' as [_ H']. eauto.
Qed.

Lemma msum_plus f g M : msum (fun m => f m + g m) M = msum f M + msum g M.
Proof.
  induction M as [|k m M Hk IH] using map_ind.
  - rewrite !msum_empty. lia.
  - rewrite !msum_insert_new by assumption. lia.
Qed.

Lemma msum_scale c f M : msum (fun m => c * f m) M = c * msum f M.
Proof.
  induction M as [|k m M Hk IH] using map_ind.
  - rewrite !msum_empty. lia.
  - rewrite !msum_insert_new by assumption. lia.
Qed.
End msum.

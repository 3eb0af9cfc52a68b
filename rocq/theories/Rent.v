(** Proofs of C71: open minings keep the rent they were opened with. *)
From stdpp Require Import gmap.
From Verif Require Import Base OMap State Spec Ledger Program ResLemmas LedgerLemmas LedgerSpec CodecLemmas WfLemmas History HistoryLemmas
  Changes AccessLemmas HistoryThms ReachThms EffectSpec EffectThms EffectMore.

Section env.
Context (e : env) (Henv : env_ok e).

Definition rent_ok (L : ledger) : Prop :=
  forall k m, is_mining e L k m -> m_type (wm m) = TYPE_MINING -> rent_min e MINING_LEN <= lamports_of L k.

Lemma genesis_rent L : genesis e L -> rent_ok L.
Proof.
  intros H k m [Ho Hd] Ht. destruct (H k) as [_ Hz]. unfold owner_of, data_of in *.
  specialize (Hz Ho). rewrite Hd in Hz. apply all_zero_mining in Hz. subst m. discriminate.
Qed.

Lemma step_rent now L ev L' : step e now L ev L' -> ledger_ok e now L -> rent_ok L -> rent_ok L'.
Proof.
  intros S HL HA k m' [Ho Hd] Ht.
  pose proof (eo_sys _ Henv). pose proof (eo_tok _ Henv). pose proof (eo_toksys _ Henv).
  destruct S as [ts ms i L' r Hts _ _ X|ts L' Hts _ X].
  - apply exec_inv in X as [X _].
    pose proof (process_change e now ts ms i L L' r Henv Hts HL X k) as C.
    unfold owner_of, data_of, lamports_of in *.
    destruct C as [E|? ? A B E G|? ? ? ? ? ? ? _ _ _ A B ? ? E|m0 m1 A B E G|? ? ? _ _ A ? ? F E|? P Q A B E|? A E|? ? A B E|? ? ? ? A ? ? F E];
      rewrite E in Ho, Hd |- *; cbn in Ho, Hd |- *; try congruence.
    + apply (HA k m'); [split; assumption|assumption].
    + injection Hd as ->. destruct G as [(G1 & G2 & G3 & G4 & G5) _].
      apply (HA k m0); [split; assumption|rewrite <- G5; exact Ht].
    + reflexivity.
    + injection Hd as <-. discriminate.
  - destruct (X k) as (_ & H1' & H2'). unfold owner_of, data_of in *.
    destruct (Z.eq_dec (a_owner (acc L k)) (program_id e)) as [Eo|Eo].
    + destruct (H1' Eo) as [(A & B & Hle)|[_ A]].
      * assert (rent_min e MINING_LEN <= lamports_of L k); [|unfold lamports_of in *; lia].
        apply (HA k m'); [split; [exact Eo|unfold data_of; congruence]|assumption].
      * rewrite A in Hd. discriminate.
    + specialize (H2' Eo Ho). rewrite Hd in H2'. apply all_zero_mining in H2'. subst m'. discriminate.
Qed.

Lemma rent_kept now L k m : reached e now L -> is_mining e L k m -> m_type (wm m) = TYPE_MINING -> rent_min e 1776 <= lamports_of L k.
Proof.
  intros (L0 & evs & G & R). revert k m. change (rent_ok L).
  assert (H : forall now0 L0, run e now0 L0 evs now L -> 0 <= now0 -> ledger_ok e now0 L0 -> rent_ok L0 -> rent_ok L).
  { clear -Henv. intros now0 L0 R. induction R as [|now0 L ev L1 evs now' L' S R IH]; intros Hn HL HA; [exact HA|].
    apply IH; [pose proof (step_time e _ _ _ _ S); lia|eapply step_ok; eassumption|eapply step_rent; eassumption]. }
  apply (H 0 L0 R); [lia|apply genesis_ok; [lia|exact G]|apply genesis_rent; exact G].
Qed.

Lemma refund now ts ms L L' r k t m :
  reached e now L -> exec e ts ms CloseMining L = Ok (L', r) -> account_at ms 0 k -> account_at ms 2 t ->
  is_mining e L k m -> m_type (wm m) = TYPE_MINING ->
  lamports_of L t + rent_min e 1776 <= lamports_of L' t /\ lamports_of L' k = 0.
Proof.
  intros HR X Ak At Hm Ht.
  destruct (close_on_ledger e Henv _ _ _ _ _ _ HR X) as (k1 & o1 & t1 & P1 & w & m1 & m2 & B0 & _ & B2 & _ & _ & Hm1 & _ & _ & _ & _ & _ & G1 & G2 & _).
  unfold account_at in *. rewrite Ak in B0. injection B0 as <-. rewrite At in B2. injection B2 as <-.
  split; [|unfold lamports_of; rewrite G1; reflexivity]. pose proof (rent_kept _ _ _ _ HR Hm Ht). lia.
Qed.

Lemma never_drained now L evs now' L' k m :
  reached e now L -> run e now L evs now' L' -> (forall ev, In ev evs -> ~ closes k ev) -> 0 < rent_min e 1776 ->
  is_mining e L k m -> m_type (wm m) = TYPE_MINING -> lamports_of L k <= lamports_of L' k.
Proof.
  intros HR R Hc Hr Hm Ht. pose proof (rent_kept _ _ _ _ HR Hm Ht) as Hk.
  destruct (reached_ok e Henv _ _ HR) as (HL & _ & Hn).
  destruct (mining_persists e Henv _ _ _ _ _ _ _ R ltac:(lia) HL Hc Hm ltac:(lia)) as (m' & _ & _ & H). exact H.
Qed.
End env.

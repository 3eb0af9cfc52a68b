(** Which fields the methods of State.v leave alone; no hypotheses on the state. *)
From Verif Require Import Base OMap State Spec ResLemmas.

(** only the total share and the schedule of the pool differ *)
Definition stake_only (w w' : wpool) : Prop :=
  exists t ds, w' = WPool (set_total (wp w) t) ds (wp_ci w).

(** the mining is the same one *)
Definition same_id (m m' : wmining) : Prop :=
  m_pool (wm m') = m_pool (wm m) /\ m_owner (wm m') = m_owner (wm m) /\
  m_mint (wm m') = m_mint (wm m) /\ m_bump (wm m') = m_bump (wm m) /\
  m_type (wm m') = m_type (wm m).

Lemma stake_only_refl w : stake_only w w.
Proof. exists (p_total (wp w)), (wp_diffs w). destruct w as [[] ? ?]; reflexivity. Qed.
Lemma stake_only_trans a b c : stake_only a b -> stake_only b c -> stake_only a c.
Proof. intros (t & ds & ->) (t' & ds' & ->). exists t', ds'. reflexivity. Qed.
Lemma same_id_refl m : same_id m m.
Proof. repeat split. Qed.
Lemma same_id_trans a b c : same_id a b -> same_id b c -> same_id a c.
Proof. unfold same_id. intuition congruence. Qed.

Lemma refresh_id ts ci m m' : refresh ts ci m = Ok m' -> same_id m m' /\ m_sfo (wm m') = m_sfo (wm m).
Proof.
  unfold refresh. intros H. cbv zeta in H. inv. split; [repeat split|reflexivity].
Qed.

(** a delegate before and after, when there is one *)
Definition dlg_id (d : dlg) (d' : option wmining) : Prop :=
  match d, d' with
  | None, None => True
  | Some (Ok m), Some m' => same_id m m'
  | _, _ => False
  end.

Lemma delegate_sub_id ts a ci t d t' d' : delegate_sub ts a ci t d = Ok (t', d') -> dlg_id d d'.
Proof.
  destruct d as [[m|]|]; cbn [delegate_sub]; intros H; inv; cbn; auto.
  apply refresh_id in E1 as [E1 _]. exact E1.
Qed.
Lemma delegate_add_id ts a ci t d t' d' : delegate_add ts a ci t d = Ok (t', d') -> dlg_id d d'.
Proof.
  destruct d as [[m|]|]; cbn [delegate_add]; intros H; inv; cbn; auto.
  apply refresh_id in E1 as [E1 _]. exact E1.
Qed.

Lemma deposit_frame ts w m a p d w' m' d' :
  deposit ts w m a p d = Ok (w', m', d') -> stake_only w w' /\ same_id m m' /\ dlg_id d d'.
Proof.
  unfold deposit. intros H. inv.
  split; [do 2 eexists; reflexivity|]. split; [|eapply delegate_add_id; eassumption].
  apply refresh_id in E as [E _]. exact E.
Qed.

Lemma withdraw_frame ts w m a d w' m' d' :
  withdraw ts w m a d = Ok (w', m', d') -> stake_only w w' /\ same_id m m' /\ dlg_id d d'.
Proof.
  unfold withdraw. intros H. inv.
  split; [do 2 eexists; reflexivity|]. split; [|eapply delegate_sub_id; eassumption].
  apply refresh_id in E as [E _]. exact E.
Qed.

Lemma slash_frame ts w m n wt dt w' m' :
  slash ts w m n wt dt = Ok (w', m') -> stake_only w w' /\ same_id m m'.
Proof.
  unfold slash. intros H.
  destruct (withdraw ts w m wt None) as [[[w1 m1] d1]|] eqn:E; cbn [rbind] in H; [|discriminate].
  apply withdraw_frame in E as (Hw & Hm & _).
  destruct dt; cbv zeta in H; inv; [|split; assumption].
  split; [|exact Hm]. eapply stake_only_trans; [exact Hw|].
  exists (p_total (wp w1)). eexists. destruct w1 as [[] ? ?]; reflexivity.
Qed.

Lemma extend_frame ts w m op np st b a d w' m' d' :
  extend ts w m op np st b a d = Ok (w', m', d') -> stake_only w w' /\ same_id m m' /\ dlg_id d d'.
Proof.
  unfold extend. intros H.
  destruct (refresh ts (wp_ci w) m) as [m1|] eqn:E1; cbn [rbind] in H; [|discriminate].
  destruct (if lockup_eqb op LFlex then _ else _) as [oe|]; cbn [rbind] in H; [|discriminate].
  destruct (safe_mul64 b _) as [fl|]; cbn [rbind] in H; [|discriminate].
  match type of H with rbind ?x _ = _ => destruct x as [[m2 t]|] eqn:E2 end; cbn [rbind] in H; [|discriminate].
  destruct (safe_add64 b a) as [am|]; cbn [rbind] in H; [|discriminate].
  destruct (delegate_sub _ _ _ _ _) as [[t' d1]|] eqn:E3; cbn [rbind] in H; [|discriminate].
  apply deposit_frame in H as (Hw & Hm & Hd). apply delegate_sub_id in E3.
  apply refresh_id in E1 as [E1 _].
  split; [eapply stake_only_trans; [|exact Hw]; do 2 eexists; reflexivity|].
  split.
  - eapply same_id_trans; [exact E1|]. eapply same_id_trans; [|exact Hm].
    destruct (ts <? oe); inv; repeat split.
  - destruct d as [[m0|]|], d1 as [m1'|], d' as [m2'|]; cbn in *; try contradiction; auto.
    eapply same_id_trans; eassumption.
Qed.

Lemma change_frame ts w m nd od a w' m' od' nd' :
  change_delegate ts w m nd od a = Ok (w', m', od', nd') ->
  stake_only w w' /\ same_id m m' /\ dlg_id od od' /\ dlg_id nd nd'.
Proof.
  unfold change_delegate. intros H. inv.
  split; [do 2 eexists; reflexivity|].
  apply refresh_id in E as [E _]. split; [exact E|].
  split; [eapply delegate_sub_id; eassumption|eapply delegate_add_id; eassumption].
Qed.

Lemma decrease_frame n m m' : decrease_rewards n m = Ok m' -> same_id m m'.
Proof.
  unfold decrease_rewards. destruct (n =? 0); intros H; inv; [apply same_id_refl|].
  destruct (_ <? n); inv. repeat split.
Qed.

(** the pool's identity *)
Definition same_config (w w' : wpool) : Prop :=
  p_deposit_auth (wp w') = p_deposit_auth (wp w) /\
  p_distribute_auth (wp w') = p_distribute_auth (wp w) /\
  p_fill_auth (wp w') = p_fill_auth (wp w) /\ p_mint (wp w') = p_mint (wp w) /\
  p_bump (wp w') = p_bump (wp w) /\ p_type (wp w') = p_type (wp w).

Lemma same_config_refl w : same_config w w.
Proof. repeat split. Qed.
Lemma same_config_trans a b c : same_config a b -> same_config b c -> same_config a c.
Proof. unfold same_config. intuition congruence. Qed.
Lemma stake_only_config w w' : stake_only w w' -> same_config w w'.
Proof. intros (t & ds & ->). repeat split. Qed.
Lemma fill_config ts r x w w' : fill_pool ts r x w = Ok w' -> same_config w w'.
Proof. unfold fill_pool. intros H. cbv zeta in H. inv. repeat split. Qed.
Lemma distribute_config ts r w w' : distribute ts r w = Ok w' -> same_config w w'.
Proof.
  unfold distribute. intros H. cbv zeta in H. inv.
  destruct (ohas _ _); inv; repeat split.
Qed.

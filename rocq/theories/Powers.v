(** Proofs of C57: what changes only with whose signature. *)
From stdpp Require Import gmap.
From Verif Require Import Base OMap State Spec Ledger Program ResLemmas TreeLemmas AccrualLemmas RefreshLemmas LedgerLemmas LedgerSpec
  FrameLemmas CodecLemmas WfLemmas History HistoryLemmas Changes AccessLemmas HistoryThms ReachThms CoreInv Dust LedgerView LedgerCore EffectSpec EffectMethods PowerSpec.

Notation unclaimed m := (m_unclaimed (wm m)).

(** ** Rewards already accounted for *)
Definition dlg_keeps (d : dlg) (d' : option wmining) : Prop :=
  forall m m', d = Some (Ok m) -> d' = Some m' -> unclaimed m <= unclaimed m'.

Section methods.
Context (now : Z) (w : wpool) (Hw : pool_wf now w).

Lemma refresh_keeps ts m m' : mining_wf m -> refresh ts (wp_ci w) m = Ok m' -> unclaimed m <= unclaimed m'.
Proof.
  intros Hm H. apply refresh_ok in H; [|eapply pool_wf_hist; eassumption|apply mining_wf_min; assumption].
  cbv zeta in H. apply H.
Qed.
Lemma add_keeps ts a t d t' d' :
  dlg_wf d -> 0 <= a -> delegate_add ts a (wp_ci w) t d = Ok (t', d') -> dlg_keeps d d'.
Proof.
  intros Hd Ha H m m' -> ->. cbn in Hd.
  eapply dlg_add_unclaimed in H as (x & E & Hx); [|eapply pool_wf_hist; eassumption|apply mining_wf_min; assumption|assumption].
  injection E as ->. assumption.
Qed.
Lemma sub_keeps ts a t d t' d' :
  dlg_wf d -> delegate_sub ts a (wp_ci w) t d = Ok (t', d') -> dlg_keeps d d'.
Proof.
  intros Hd H m m' -> ->. cbn in Hd.
  eapply dlg_sub_unclaimed in H as (x & E & Hx & _); [|eapply pool_wf_hist; eassumption|apply mining_wf_min; assumption].
  injection E as ->. assumption.
Qed.
Lemma deposit_keeps ts m a p d w' m' d' :
  mining_wf m -> dlg_wf d -> 0 <= a -> deposit ts w m a p d = Ok (w', m', d') ->
  unclaimed m <= unclaimed m' /\ dlg_keeps d d'.
Proof.
  intros Hm Hd Ha H. unfold deposit in H. inv. split.
  - match goal with H : refresh _ _ _ = Ok _ |- _ => apply (refresh_keeps _ _ _ Hm) in H end. cbn. assumption.
  - eapply add_keeps; eassumption.
Qed.
Lemma withdraw_keeps ts m a d w' m' d' :
  mining_wf m -> dlg_wf d -> withdraw ts w m a d = Ok (w', m', d') ->
  unclaimed m <= unclaimed m' /\ dlg_keeps d d'.
Proof.
  intros Hm Hd H. unfold withdraw in H. inv. split.
  - match goal with H : refresh _ _ _ = Ok _ |- _ => apply (refresh_keeps _ _ _ Hm) in H end. cbn. assumption.
  - eapply sub_keeps; eassumption.
Qed.
Lemma slash_keeps ts m n wt dt w' m' :
  mining_wf m -> slash ts w m n wt dt = Ok (w', m') -> unclaimed m <= unclaimed m'.
Proof.
  intros Hm H. unfold slash in H.
  destruct (withdraw ts w m wt None) as [[[w1 m1] d1]|] eqn:E; cbn [rbind] in H; [|discriminate].
  apply withdraw_keeps in E as [E _]; [|assumption|exact I].
  destruct dt; cbv zeta in H; inv; assumption.
Qed.
Lemma change_keeps ts m nd od a w' m' od' nd' :
  mining_wf m -> dlg_wf od -> dlg_wf nd -> 0 <= a -> change_delegate ts w m nd od a = Ok (w', m', od', nd') ->
  unclaimed m <= unclaimed m' /\ dlg_keeps od od' /\ dlg_keeps nd nd'.
Proof.
  intros Hm Ho Hn Ha H. unfold change_delegate in H. inv. split; [|split].
  - eapply refresh_keeps; eassumption.
  - eapply sub_keeps; eassumption.
  - eapply add_keeps; eassumption.
Qed.
End methods.
Lemma extend_keeps now w ts m op np st b a d w' m' d' :
  0 <= ts -> pool_wf now w -> mining_wf m -> dlg_wf d -> 0 <= b -> 0 <= a ->
  extend ts w m op np st b a d = Ok (w', m', d') -> unclaimed m <= unclaimed m' /\ dlg_keeps d d'.
Proof.
  intros Hts Hp Hm Hd Hb Ha H. unfold extend in H.
  destruct (refresh ts (wp_ci w) m) as [m1|] eqn:E1; cbn [rbind] in H; [|discriminate].
  pose proof (refresh_keeps _ _ Hp _ _ _ Hm E1) as K1. apply (refresh_wf _ _ _ _ _ Hp Hm) in E1.
  destruct (if lockup_eqb op LFlex then _ else _) as [oe|]; cbn [rbind] in H; [|discriminate].
  destruct (safe_mul64 b _) as [fl|] eqn:Ef; cbn [rbind] in H; [|discriminate].
  match type of H with rbind ?x _ = _ => destruct x as [[m2 t]|] eqn:E2 end; cbn [rbind] in H; [|discriminate].
  destruct (safe_add64 b a) as [am|] eqn:Ea; cbn [rbind] in H; [|discriminate].
  destruct (delegate_sub _ _ _ _ _) as [[t' d1]|] eqn:E3; cbn [rbind] in H; [|discriminate].
  assert (mining_wf m2 /\ is_u64 t /\ unclaimed m2 = unclaimed m1) as (Hm2 & Ht & K2).
  { pose proof (mw_share _ E1). pose proof (pw_total _ _ Hp). pose proof (multiplier_bounds op).
    destruct (ts <? oe); inv.
    - match goal with H : modify_diffs (wm_diffs _) _ _ = Ok _ |- _ =>
        eapply modify_wf in H; [|eapply mining_wf_sched; eassumption|lia] end.
      split; [apply mining_stake_wf; auto|split; [|reflexivity]]; unfold is_u64 in *; nia.
    - split; [apply mining_stake_wf; auto; [|apply mining_wf_sched; assumption]|split; [|reflexivity]];
        cbn [multiplier] in *; unfold is_u64 in *; lia. }
  pose proof (sub_keeps _ _ Hp _ _ _ _ _ _ Hd E3) as K3.
  assert (Hd1 : odlg_wf d1) by (eapply delegate_sub_wf in E3 as [_ Hd1]; eassumption).
  inv.
  match type of H with deposit ?ts ?w0 _ _ _ _ = _ => assert (Hp0 : pool_wf now w0) end.
  { unfold set_wtotal. eapply delegate_sub_wf in E3 as [Ht' _]; [|eassumption..].
    apply pool_stake_wf; [assumption|assumption|eapply pool_wf_sched; eassumption]. }
  pose proof (deposit_grows _ _ _ _ _ _ _ _ _ H) as (_ & _ & G).
  eapply (deposit_keeps now _ Hp0) in H as [K4 K5]; [|assumption|apply odlg_dlg_wf; assumption|lia].
  split; [lia|]. intros x x' -> ->. destruct d1 as [x1|]; [|destruct G].
  specialize (K3 x x1 eq_refl eq_refl). specialize (K5 x1 x' eq_refl eq_refl). lia.
Qed.
Lemma decrease_keeps n m m' : decrease_rewards n m = Ok m' -> unclaimed m' = unclaimed m.
Proof.
  intros H. unfold decrease_rewards in H. destruct (n =? 0); inv; [reflexivity|].
  destruct (m_share (wm m) <? n); inv. reflexivity.
Qed.

(** the last value written at [k], or what was there *)
Ltac kept H k :=
  cbn [put_dlg] in H; chase H k; unfold put_data, put_lamports in H; rewrite ?acc_insert in H; cbn [a_data] in H;
  unfold data_of, owner_of in *;
  try congruence;
  try (match goal with A : a_data (acc ?L k) = DMining ?x, B : a_data (acc ?L k) = DMining ?y |- _ =>
         assert (x = y) by congruence; subst; clear A end);
  try (injection H as <-);
  try lia.

Lemma keeps_dlg L dm mining x x' :
  dlg_keeps (dlg_of L dm mining) (Some x') -> dm <> mining -> data_of L dm = DMining x -> unclaimed x <= unclaimed x'.
Proof.
  intros K Hne Hd. apply K; [|reflexivity]. unfold dlg_of. destruct (Z.eqb_spec mining dm); [congruence|].
  unfold data_of in Hd. rewrite Hd. reflexivity.
Qed.
Lemma stake_kept L pool w w' mining m0 m0' dm d' k m m' :
  dlg_grows (dlg_of L dm mining) d' -> dlg_keeps (dlg_of L dm mining) d' ->
  data_of L pool = DPool w -> data_of L mining = DMining m0 -> unclaimed m0 <= unclaimed m0' ->
  data_of L k = DMining m ->
  a_data (acc (put_dlg (put_mining (put_pool L pool w') mining m0') dm d') k) = DMining m' ->
  unclaimed m <= unclaimed m'.
Proof.
  intros G K Hp Hm Hu Hk H. apply dlg_of_cases in G as [[-> ->]|(Hnm & x & x' & Hdm & -> & _)].
  - kept H k.
  - pose proof (keeps_dlg _ _ _ _ _ K Hnm Hdm). kept H k.
Qed.

(** the pool written at [k] *)
Ltac wrote H k :=
  cbn [put_dlg] in H; chase H k; unfold put_data, put_lamports in H; rewrite ?acc_insert in H; cbn [a_data] in H;
  unfold data_of, owner_of in *; congruence.

(** the balance of the token account [k] has not fallen *)
Ltac same_amount H k :=
  cbn [put_dlg] in H; chase H k; unfold put_data, put_lamports in H; rewrite ?acc_insert in H; cbn [a_data] in H;
  unfold data_of, owner_of in *;
  solve [congruence
        |match goal with A : a_data (acc ?L k) = DToken ?x, B : a_data (acc ?L k) = DToken ?y |- _ =>
           assert (x = y) by congruence; subst end; lia
        |match goal with A : a_data (acc ?L k) = DToken ?x, B : a_data (acc ?L k) = DToken ?y |- _ =>
           assert (x = y) by congruence; subst end; injection H as <-; cbn [t_amount] in *; lia].

Section env.
Context (e : env) (Henv : env_ok e).

(** the unclaimed rewards of a mining fall only by a claim or a close of it *)
Lemma exec_keeps now ts ms i L L' r k m m' :
  0 <= now -> now <= ts -> is_u64 ts -> ix_in_range i -> ledger_ok e now L -> exec e ts ms i L = Ok (L', r) ->
  is_mining e L k m -> is_mining e L' k m' ->
  unclaimed m <= unclaimed m' \/ i = Claim /\ account_at ms 3 k \/ i = CloseMining /\ account_at ms 0 k.
Proof.
  intros Hn Hts Hu Hr HL H [Ho Hd] [Ho' Hd'].
  assert (Hwf : mining_wf m) by (eapply ok_mining; eassumption).
  destruct (decide (acc L' k = acc L k)) as [E|Hc].
  { left. unfold data_of in *. rewrite E, Hd in Hd'. injection Hd' as <-. lia. }
  apply exec_inv in H as [H _].
  pose proof (eo_sys _ Henv). pose proof (eo_tok _ Henv). pose proof (eo_toksys _ Henv).
  assert (HL2 : ledger_ok e ts L) by (eapply ledger_ok_mono; eassumption).
  unfold data_of in Hd'.
  destruct i; cbn [process ix_in_range] in *; unfold is_u64 in Hr; try (apply no_ret_ok in H as [H _]).
  - left. apply init_pool_inv in H as (pool & mint & vault & payer & auth & bump & w0 & L1 & L2 & A & _ & _ & _ & _ & _ & _ & _ & _ & _ & _ & Hcr & Ha & ->).
    apply create_account_inv in Hcr as (_ & _ & _ & _ & Hv & _ & Hf & _ & _ & _ & ->).
    apply initialize_account_inv in Ha as (_ & _ & _ & ->).
    kept Hd' k.
  - left. apply fill_inv in H as (pool & mint & vault & auth & src & w0 & w' & A & _ & _ & Hv & Hs & _ & _ & _ & _ & _ & _ & _ & Ht).
    apply spl_transfer_inv in Ht as (s & d & _ & _ & _ & _ & _ & _ & _ & _ & [[-> ->]|(_ & _ & ->)]); kept Hd' k.
  - left. apply init_mining_inv in H as (pool & mining & payer & bump & L1 & A & _ & _ & _ & _ & Hcr & ->).
    apply create_account_inv in Hcr as (_ & _ & _ & _ & Hv & _ & Hf & _ & _ & _ & ->).
    kept Hd' k.
  - left. apply deposit_inv in H as (pool & mining & auth & dm & w & m0 & w' & m0' & d' & A & Hx & _ & Hoo & Hde & ->).
    pose proof (ok_ctx _ _ _ _ _ _ _ _ _ _ HL2 Hx) as [Hw Hm]. destruct Hx.
    pose proof (ok_dlg e ts L dm mining HL2 Hoo) as Hdw.
    pose proof (deposit_grows _ _ _ _ _ _ _ _ _ Hde) as (_ & _ & G).
    eapply deposit_keeps in Hde as [K1 K2]; [|eassumption|assumption|assumption|lia].
    eapply stake_kept; eassumption.
  - left. apply withdraw_inv in H as (pool & mining & auth & dm & w & m0 & w' & m0' & d' & A & Hx & _ & Hoo & Hde & ->).
    pose proof (ok_ctx _ _ _ _ _ _ _ _ _ _ HL2 Hx) as [Hw Hm]. destruct Hx.
    pose proof (ok_dlg e ts L dm mining HL2 Hoo) as Hdw.
    pose proof (withdraw_grows _ _ _ _ _ _ _ _ Hde) as (_ & _ & G).
    eapply withdraw_keeps in Hde as [K1 K2]; [|eassumption|assumption|assumption].
    eapply stake_kept; eassumption.
  - destruct (process_claim e ts ms L) as [[L1 x]|] eqn:E; [|discriminate]. injection H as <- <-.
    apply claim_inv in E as (pool & mint & vault & mining & owner & auth & dest & w0 & m0 & m1 & t & A & _ & _ & Hv & _ & Hde & _ & _ & _ & _ & _ & _ & Hm & _ & Hmp & _ & _ & _ & _ & Hcl).
    destruct (Z.eq_dec mining k) as [->|Hmk]; [right; left; split; [reflexivity|at_]|left].
    cbv zeta in Hcl. destruct Hcl as [[_ ->]|[_ Ht]]; [kept Hd' k|].
    apply spl_transfer_inv in Ht as (s & d & _ & _ & _ & _ & _ & _ & _ & _ & [[-> ->]|(_ & _ & ->)]); kept Hd' k.
  - left. apply extend_inv in H as (pool & mining & auth & dm & w & m0 & w' & m0' & d' & A & Hx & _ & Hoo & Hde & ->).
    pose proof (ok_ctx _ _ _ _ _ _ _ _ _ _ HL2 Hx) as [Hw Hm]. destruct Hx.
    pose proof (ok_dlg e ts L dm mining HL2 Hoo) as Hdw.
    pose proof (extend_grows _ _ _ _ _ _ _ _ _ _ _ _ Hde) as (_ & _ & G).
    eapply extend_keeps in Hde as [K1 K2]; [|lia|eassumption|assumption|assumption|lia|lia].
    eapply stake_kept; eassumption.
  - left. apply distribute_inv in H as (pool & auth & w0 & r0 & w' & A & _ & _ & _ & _ & _ & _ & ->). kept Hd' k.
  - apply close_inv in H as (mining & owner & target & auth & pool & w0 & m0 & m1 & A & _ & Ht & _ & _ & _ & _ & _ & _ & Hm & _ & _ & _ & _ & _ & ->).
    destruct (Z.eq_dec mining k) as [->|Hmk]; [right; right; split; [reflexivity|at_]|left]. kept Hd' k.
  - left. apply change_inv in H as (pool & mining & auth & owner & od & nd & w & m0 & w' & m0' & od' & nd' & A & Hx & _ & _ & Hoo & Hno & _ & _ & Hde & ->).
    pose proof (ok_ctx _ _ _ _ _ _ _ _ _ _ HL2 Hx) as [Hw Hm]. destruct Hx.
    pose proof (ok_dlg e ts L od mining HL2 Hoo) as Hodw. pose proof (ok_dlg e ts L nd mining HL2 Hno) as Hndw.
    pose proof (change_grows _ _ _ _ _ _ _ _ _ _ Hde) as (_ & _ & G1 & G2).
    eapply change_keeps in Hde as (K1 & K2 & K3); [|eassumption|assumption|assumption|assumption|lia].
    apply dlg_of_cases in G2 as [[-> ->]|(Hnm & x & x' & Hdm & -> & _)].
    + cbn [put_dlg] in Hd'. eapply stake_kept; eassumption.
    + pose proof (keeps_dlg _ _ _ _ _ K3 Hnm Hdm). cbn [put_dlg] in Hd'. unfold put_mining at 1 in Hd'.
      rewrite acc_put in Hd'. destruct (Z.eqb_spec k nd) as [->|].
      * cbn in Hd'. assert (x = m) by congruence. subst. injection Hd' as <-. assumption.
      * eapply stake_kept; eassumption.
  - left. apply slash_inv in H as (auth & pool & mining & w & m0 & w' & m0' & A & Hx & Hde & ->).
    pose proof (ok_ctx _ _ _ _ _ _ _ _ _ _ HL2 Hx) as [Hw Hm]. destruct Hx.
    eapply slash_keeps in Hde; [|eassumption|assumption]. kept Hd' k.
  - left. apply decrease_inv in H as (auth & pool & mining & w & m0 & m0' & A & Hx & Hde & ->). destruct Hx.
    apply decrease_keeps in Hde. kept Hd' k.
Qed.

(** ** What the owner of a mining must sign *)
Lemma needs_the_owner ts ms i L L' r k m :
  exec e ts ms i L = Ok (L', r) -> is_mining e L k m -> ~ signed ms (m_owner (wm m)) ->
  ~ (i = Claim /\ account_at ms 3 k) /\ ~ (i = CloseMining /\ account_at ms 0 k).
Proof.
  intros X [_ Hm] Hs.
  assert (forall n, needs_owner i = true -> mining_position i = Some n -> account_at ms n k -> False).
  { intros n Hn Hp Hk. destruct (owner_signed _ _ _ _ _ _ _ X Hn) as (n0 & k0 & m0 & Hp0 & Hk0 & [_ Hm0] & Hs0).
    assert (n0 = n) by congruence. subst n0. rewrite (at_fun _ _ _ _ Hk0 Hk), Hm in Hm0. injection Hm0 as <-. auto. }
  split; intros [-> Hk]; eauto.
Qed.

Lemma step_rewards now L ev L' k m :
  0 <= now -> step e now L ev L' -> ledger_ok e now L -> silent (m_owner (wm m)) ev ->
  is_mining e L k m -> 0 < lamports_of L k ->
  exists m', is_mining e L' k m' /\ same_id m m' /\ unclaimed m <= unclaimed m' /\ lamports_of L k <= lamports_of L' k.
Proof.
  intros Hn S HL Hs Hm Hl. destruct S as [ts ms i L' r Hts Hu Hr X|ts L' Hts _ X]; cbn [silent] in Hs.
  - destruct (needs_the_owner _ _ _ _ _ _ _ _ X Hm Hs) as [N1 N2].
    destruct (exec_mining e Henv _ _ _ _ _ _ _ _ _ Hts HL X Hm N2) as (m' & Hm' & [G _] & El).
    exists m'. split; [assumption|]. split; [assumption|]. split; [|lia].
    destruct (exec_keeps _ _ _ _ _ _ _ _ _ _ Hn Hts Hu Hr HL X Hm Hm') as [|[|]]; [assumption|tauto|tauto].
  - destruct (ext_mining e _ _ _ _ X Hm Hl). exists m. split; [assumption|]. split; [apply same_id_refl|]. split; [lia|assumption].
Qed.
Lemma run_rewards now L evs now' L' k m :
  run e now L evs now' L' -> 0 <= now -> ledger_ok e now L -> Forall (silent (m_owner (wm m))) evs ->
  is_mining e L k m -> 0 < lamports_of L k ->
  exists m', is_mining e L' k m' /\ same_id m m' /\ unclaimed m <= unclaimed m' /\ lamports_of L k <= lamports_of L' k.
Proof.
  intros R. revert m. induction R as [|now L ev L1 evs now' L' S R IH]; intros m Hn HL Hs Hm Hl.
  - exists m. split; [assumption|]. split; [apply same_id_refl|]. lia.
  - inversion Hs as [|? ? Hs1 Hs2]; subst.
    destruct (step_rewards _ _ _ _ _ _ Hn S HL Hs1 Hm Hl) as (m1 & Hm1 & G1 & U1 & Hl1).
    pose proof (step_time e _ _ _ _ S).
    destruct (IH m1) as (m2 & Hm2 & G2 & U2 & Hl2); [lia|eapply step_ok; eassumption| |assumption|lia|].
    { destruct G1 as (_ & -> & _). assumption. }
    exists m2. split; [assumption|]. split; [eapply same_id_trans; eassumption|]. lia.
Qed.

(** ** What a pool's authorities must sign *)
Definition same_stake (ts : Z) (w w' : wpool) : Prop := forall d, day_start ts <= d -> pool_net w' d = pool_net w d.
Definition same_index (w w' : wpool) : Prop := p_index (wp w') = p_index (wp w) /\ wp_ci w' = wp_ci w.

Record pool_powers (ts : Z) (may : role -> Prop) (w w' : wpool) : Prop := {
  pp_stake : ~ may DepositAuthority -> same_stake ts w w';
  pp_index : ~ may DistributeAuthority -> same_index w w';
  pp_spent : ~ may DistributeAuthority -> p_avail (wp w) <= p_avail (wp w');
  pp_filled : ~ may FillAuthority -> p_avail (wp w') <= p_avail (wp w);
  pp_until : ~ may FillAuthority -> p_ends_at (wp w') = p_ends_at (wp w);
  pp_same : (forall r, ~ may r) -> w' = w }.

Lemma powers_refl ts may w : pool_powers ts may w w.
Proof. split; intros _; try (split; reflexivity); try lia; try reflexivity. Qed.
Lemma powers_trans ts ts' may a b c :
  ts <= ts' -> pool_powers ts may a b -> pool_powers ts' may b c -> pool_powers ts' may a c.
Proof.
  intros Ht [A1 A2 A3 A4 A5 A6] [B1 B2 B3 B4 B5 B6]. split; intros N.
  - intros d Hd. rewrite (B1 N d Hd). apply (A1 N). rewrite <- bod_day_start in *. pose proof (bod_mono ts ts' Ht). lia.
  - destruct (A2 N), (B2 N). split; congruence.
  - specialize (A3 N). specialize (B3 N). lia.
  - specialize (A4 N). specialize (B4 N). lia.
  - rewrite (B5 N). apply (A5 N).
  - rewrite (B6 N). apply (A6 N).
Qed.
Lemma powers_weaken ts (may may' : role -> Prop) a b :
  (forall r, may r -> may' r) -> pool_powers ts may a b -> pool_powers ts may' a b.
Proof.
  intros Hw []. split; intros N; auto.
  apply pp_same0. intros r Hr. exact (N r (Hw r Hr)).
Qed.
Lemma powers_stake ts (may : role -> Prop) w w' : may DepositAuthority -> stake_only w w' -> pool_powers ts may w w'.
Proof.
  intros H (t & ds & ->). split; intros N; cbn; try lia; try reflexivity; try contradiction; [split; reflexivity|].
  destruct (N _ H).
Qed.
Lemma powers_fill ts r x (may : role -> Prop) w w' :
  0 <= r -> may FillAuthority -> fill_pool ts r x w = Ok w' -> pool_powers ts may w w'.
Proof.
  intros Hr H F. unfold fill_pool in F. cbv zeta in F. inv.
  split; intros N; cbn; try lia; try contradiction.
  - intros d _. reflexivity.
  - split; reflexivity.
  - destruct (N _ H).
Qed.
Lemma powers_distribute now ts r (may : role -> Prop) w w' :
  0 <= r -> now <= ts -> pool_wf now w -> may DistributeAuthority -> distribute ts r w = Ok w' -> pool_powers ts may w w'.
Proof.
  intros Hr Hn Hw H F. pose proof (distribute_effect _ _ _ _ _ Hw Hn F) as (O & _ & T & D & A).
  assert (same_stake ts w w') as Hst.
  { intros d Hd. unfold pool_net. rewrite T, D, due_after by assumption. lia. }
  assert (p_avail (wp w') <= p_avail (wp w)).
  { destruct (in_dec Z.eq_dec (day_start ts) (map fst (wp_ci w))) as [Hi|Hi].
    - destruct A as [A _]. destruct A as (_ & _ & ->); [|lia]. apply in_map_iff in Hi as ([x y] & <- & Hi). exists y. exact Hi.
    - destruct A as [_ A]. destruct A as (_ & _ & _ & -> & _); [|lia]. intros [y Hy]. apply Hi. apply in_map_iff. eexists. split; [|eassumption]. reflexivity. }
  split; intros N; try contradiction; try assumption.
  - apply O.
  - destruct (N _ H).
Qed.

Lemma exec_powers now ts ms i L L' r k w :
  0 <= now -> now <= ts -> is_u64 ts -> ix_in_range i -> ledger_ok e now L -> exec e ts ms i L = Ok (L', r) ->
  is_pool e L k w -> p_type (wp w) = TYPE_POOL ->
  exists w', is_pool e L' k w' /\ pool_grows ts w w' /\ lamports_of L' k = lamports_of L k /\
    pool_powers ts (fun ro => signed ms (holder w ro)) w w' /\ (w' <> w -> account_at ms (pool_position i) k).
Proof.
  intros Hn Hts Hu Hr HL X Hk Hty.
  destruct (exec_pool e Henv _ _ _ _ _ _ _ _ _ Hts HL X Hk Hty) as (w' & Hk' & G & El).
  exists w'. split; [assumption|]. split; [assumption|]. split; [assumption|].
  destruct (decide (acc L' k = acc L k)) as [E|Hc].
  { assert (w' = w) as ->; [|split; [apply powers_refl|congruence]].
    destruct Hk as [_ Hk], Hk' as [_ Hk']. unfold data_of in *. rewrite E, Hk in Hk'. congruence. }
  destruct (pool_named e _ _ _ _ _ _ X) as [P HP].
  destruct (Z.eq_dec k P) as [<-|Hne].
  2:{ destruct Hc. exact (isolation_pool e Henv _ _ _ _ _ _ _ _ _ X HP Hk Hne). }
  split; [|intros _; assumption].
  assert (HL2 : ledger_ok e ts L) by (eapply ledger_ok_mono; eassumption).
  destruct Hk as [Ho Hd], Hk' as [Ho' Hd']. pose proof (ok_pool _ _ _ _ _ HL2 Ho Hd) as Hw.
  apply exec_inv in X as [H _]. unfold data_of in Hd'.
  pose proof (eo_sys _ Henv). pose proof (eo_tok _ Henv). pose proof (eo_toksys _ Henv).
  destruct i; cbn [process ix_in_range pool_position] in *; unfold is_u64 in Hr; try (apply no_ret_ok in H as [H _]).
  - apply init_pool_inv in H as (pool & mint & vault & payer & auth & bump & w0 & L1 & L2 & A & _ & _ & _ & _ & _ & Hd0 & Hty0 & _).
    assert (k = pool) by (eapply at_fun; [eassumption|at_]). subst pool. congruence.
  - apply fill_inv in H as (pool & mint & vault & auth & src & w0 & w1 & A & _ & _ & Hv & Hs & Hsg & _ & Hd0 & -> & _ & _ & Hf & Ht).
    assert (k = pool) by (eapply at_fun; [eassumption|at_]). subst pool.
    rewrite Hd in Hd0. injection Hd0 as <-.
    assert (w1 = w') as ->.
    { apply spl_transfer_inv in Ht as (s & d & _ & _ & _ & _ & _ & _ & _ & _ & [[-> ->]|(_ & _ & ->)]); wrote Hd' k. }
    eapply powers_fill; [|exact Hsg|exact Hf]; lia.
  - exfalso. apply init_mining_inv in H as (pool & mining & payer & bump & L1 & A & _ & _ & _ & _ & Hcr & ->).
    apply create_account_inv in Hcr as (_ & _ & _ & _ & Hv & _ & Hf & _ & _ & _ & ->).
    wrote Hc k.
  - apply deposit_inv in H as (pool & mining & auth & dm & w0 & m0 & w1 & m0' & d' & A & Hx & _ & Hoo & Hde & ->).
    assert (k = pool) by (eapply at_fun; [eassumption|at_]). subst pool. destruct Hx.
    rewrite Hd in sc_pool. injection sc_pool as <-. subst auth.
    pose proof (deposit_grows _ _ _ _ _ _ _ _ _ Hde) as (_ & _ & D).
    apply powers_stake; [assumption|]. apply deposit_frame in Hde as Hs.
    assert (w1 = w') as ->; [|apply Hs].
    apply dlg_of_cases in D as [[-> ->]|(Hnm & x & x' & Hdm & -> & _)]; wrote Hd' k.
  - apply withdraw_inv in H as (pool & mining & auth & dm & w0 & m0 & w1 & m0' & d' & A & Hx & _ & Hoo & Hde & ->).
    assert (k = pool) by (eapply at_fun; [eassumption|at_]). subst pool. destruct Hx.
    rewrite Hd in sc_pool. injection sc_pool as <-. subst auth.
    pose proof (withdraw_grows _ _ _ _ _ _ _ _  Hde) as (_ & _ & D).
    apply powers_stake; [assumption|]. apply withdraw_frame in Hde as Hs.
    assert (w1 = w') as ->; [|apply Hs].
    apply dlg_of_cases in D as [[-> ->]|(Hnm & x & x' & Hdm & -> & _)]; wrote Hd' k.
  - exfalso. destruct (process_claim e ts ms L) as [[L1 x]|] eqn:E; [|discriminate]. injection H as <- <-.
    apply claim_inv in E as (pool & mint & vault & mining & owner & auth & dest & w0 & m0 & m1 & t & A & _ & _ & Hv & _ & Hde & _ & _ & _ & _ & _ & _ & Hm & _ & Hmp & _ & _ & _ & _ & Hcl).
    cbv zeta in Hcl. destruct Hcl as [[_ ->]|[_ Ht]]; [wrote Hc k|].
    apply spl_transfer_inv in Ht as (s & d & _ & _ & _ & _ & _ & _ & _ & _ & [[-> ->]|(_ & _ & ->)]); wrote Hc k.
  - apply extend_inv in H as (pool & mining & auth & dm & w0 & m0 & w1 & m0' & d' & A & Hx & _ & Hoo & Hde & ->).
    assert (k = pool) by (eapply at_fun; [eassumption|at_]). subst pool. destruct Hx.
    rewrite Hd in sc_pool. injection sc_pool as <-. subst auth.
    pose proof (extend_grows _ _ _ _ _ _ _ _ _ _ _ _ Hde) as (_ & _ & D).
    apply powers_stake; [assumption|]. apply extend_frame in Hde as Hs.
    assert (w1 = w') as ->; [|apply Hs].
    apply dlg_of_cases in D as [[-> ->]|(Hnm & x & x' & Hdm & -> & _)]; wrote Hd' k.
  - apply distribute_inv in H as (pool & auth & w0 & r0 & w1 & A & _ & Hsg & Hd0 & -> & Hrd & Hdi & ->).
    assert (k = pool) by (eapply at_fun; [eassumption|at_]). subst pool.
    rewrite Hd in Hd0. injection Hd0 as <-. assert (w1 = w') as -> by wrote Hd' k.
    eapply (powers_distribute ts); [|lia|exact Hw|exact Hsg|exact Hdi].
    rewrite (rewards_exact ts (wp w) (pw_avail _ _ Hw)) in Hrd. injection Hrd as <-.
    apply daily_part_bounds. pose proof (pw_avail _ _ Hw) as Ha. unfold is_u64 in Ha. lia.
  - exfalso. apply close_inv in H as (mining & owner & target & auth & pool & w0 & m0 & m1 & A & _ & Ht & _ & _ & _ & _ & _ & _ & Hm & _ & _ & _ & _ & _ & ->).
    wrote Hc k.
  - apply change_inv in H as (pool & mining & auth & owner & od & nd & w0 & m0 & w1 & m0' & od' & nd' & A & Hx & _ & _ & Hoo & Hno & _ & _ & Hde & ->).
    assert (k = pool) by (eapply at_fun; [eassumption|at_]). subst pool. destruct Hx.
    rewrite Hd in sc_pool. injection sc_pool as <-. subst auth.
    pose proof (change_grows _ _ _ _ _ _ _ _ _ _ Hde) as (_ & _ & G1 & G2).
    apply powers_stake; [assumption|]. apply change_frame in Hde as Hs.
    assert (w1 = w') as ->; [|apply Hs].
    apply dlg_of_cases in G1 as [[-> ->]|(Hnm1 & x1 & x1' & Hdm1 & -> & _)];
    apply dlg_of_cases in G2 as [[-> ->]|(Hnm & x & x' & Hdm & -> & _)]; wrote Hd' k.
  - apply slash_inv in H as (auth & pool & mining & w0 & m0 & w1 & m0' & A & Hx & Hde & ->).
    assert (k = pool) by (eapply at_fun; [eassumption|at_]). subst pool. destruct Hx.
    rewrite Hd in sc_pool. injection sc_pool as <-. subst auth.
    apply powers_stake; [assumption|]. apply slash_frame in Hde as Hs.
    assert (w1 = w') as ->; [|apply Hs]. wrote Hd' k.
  - exfalso. apply decrease_inv in H as (auth & pool & mining & w0 & m0 & m0' & A & Hx & Hde & ->). destruct Hx.
    wrote Hc k.
Qed.

Lemma run_later now L evs now' L' : run e now L evs now' L' -> now <= now'.
Proof. intros R. induction R as [|now L ev L1 evs now' L' S R IH]; [lia|]. pose proof (step_time e _ _ _ _ S). lia. Qed.

Lemma run_powers now L evs now' L' k w :
  run e now L evs now' L' -> 0 <= now -> ledger_ok e now L ->
  is_pool e L k w -> p_type (wp w) = TYPE_POOL -> 0 < lamports_of L k ->
  exists w', is_pool e L' k w' /\ same_config w w' /\
    pool_powers now' (fun ro => Exists (fun ev => ~ silent (holder w ro) ev) evs) w w'.
Proof.
  intros R. revert w. induction R as [|now L ev L1 evs now' L' S R IH]; intros w Hn HL Hk Hty Hl.
  - exists w. split; [assumption|]. split; [apply same_config_refl|apply powers_refl].
  - pose proof (step_time e _ _ _ _ S) as Ht.
    assert (HL1 : ledger_ok e (time_of ev) L1) by (eapply step_ok; eassumption).
    assert (H1 : exists w1, is_pool e L1 k w1 /\ same_config w w1 /\ 0 < lamports_of L1 k /\
      pool_powers (time_of ev) (fun ro => ~ silent (holder w ro) ev) w w1).
    { destruct S as [ts ms i L1 r Hts Hu Hr X|ts L1 Hts _ X]; cbn [silent time_of].
      - destruct (exec_powers _ _ _ _ _ _ _ _ _ Hn Hts Hu Hr HL X Hk Hty) as (w1 & A & [B _] & C & D & _).
        exists w1. split; [assumption|]. split; [assumption|]. split; [lia|].
        eapply powers_weaken; [|exact D]. cbn. tauto.
      - destruct (ext_pool e _ _ _ _ X Hk Hl). exists w. split; [assumption|]. split; [apply same_config_refl|].
        split; [lia|apply powers_refl]. }
    destruct H1 as (w1 & A & B & C & D).
    destruct (IH w1) as (w2 & A2 & B2 & D2); [lia|assumption|assumption| |assumption|].
    { destruct B as (_ & _ & _ & _ & _ & ->). assumption. }
    exists w2. split; [assumption|]. split; [eapply same_config_trans; eassumption|].
    eapply powers_trans; [exact (run_later _ _ _ _ _ R)| |].
    + eapply powers_weaken; [|exact D]. intros ro H. apply Exists_cons_hd. exact H.
    + eapply powers_weaken; [|exact D2]. intros ro H. apply Exists_cons_tl.
      replace (holder w ro) with (holder w1 ro); [exact H|]. destruct B as (B1 & B3 & B4 & _). destruct ro; assumption.
Qed.

(** ** What changes a mining *)
Lemma exec_untouched (Hinj : env_inj e) ts ms i L L' r k m w :
  addresses_ok e L -> exec e ts ms i L = Ok (L', r) ->
  is_mining e L k m -> m_type (wm m) = TYPE_MINING -> is_pool e L (m_pool (wm m)) w ->
  ~ signed ms (p_deposit_auth (wp w)) -> ~ unchecked k (EvIx ts ms i) -> acc L' k = acc L k.
Proof.
  intros HA X Hm Hty Hp Hs Hu.
  destruct (decide (acc L' k = acc L k)) as [|Hc]; [assumption|exfalso].
  destruct (role_of i) as [ro|] eqn:Er.
  - destruct (authority_signed _ _ _ _ _ _ _ _ X Er) as (P & w0 & HP & Hw0 & Hs0).
    destruct (Z.eq_dec (m_pool (wm m)) P) as [<-|Hne].
    + assert (w0 = w) as -> by (destruct Hp as [_ Hp], Hw0 as [_ Hw0]; congruence).
      destruct Hm as [Ho Hd]. apply exec_inv in X as [H _].
      pose proof (eo_sys _ Henv). pose proof (eo_tok _ Henv). pose proof (eo_toksys _ Henv).
      destruct i; try discriminate Er; cbn [role_of] in Er; injection Er as <-; try (exact (Hs Hs0)); cbn [process] in H; apply no_ret_ok in H as [H _].
      * apply fill_inv in H as (pool & mint & vault & auth & src & w1 & w' & A & _ & _ & Hv & Hsr & _ & _ & Hpd & _ & _ & _ & _ & Ht).
        apply spl_transfer_inv in Ht as (s & d & _ & _ & _ & _ & _ & _ & _ & _ & [[-> ->]|(_ & _ & ->)]); wrote Hc k.
      * apply distribute_inv in H as (pool & auth & w1 & r0 & w' & A & _ & _ & Hpd & _ & _ & _ & ->). wrote Hc k.
    + apply Hc. eapply (isolation_mining e Henv Hinj); [eassumption..|].
      intros [[(a & n & ->) Hk]|[-> Hk]]; exact (Hu Hk).
  - destruct Hm as [Ho Hd]. apply exec_inv in X as [H _].
    pose proof (eo_sys _ Henv). pose proof (eo_tok _ Henv). pose proof (eo_toksys _ Henv).
    destruct i; try discriminate Er; cbn [process] in H; apply no_ret_ok in H as [H _].
    + apply init_pool_inv in H as (pool & mint & vault & payer & auth & bump & w0 & L1 & L2 & A & _ & _ & _ & _ & _ & ? & _ & _ & _ & _ & Hcr & Ha & ->).
      apply create_account_inv in Hcr as (_ & _ & _ & _ & Hv & _ & Hf & _ & _ & _ & ->).
      apply initialize_account_inv in Ha as (_ & _ & _ & ->). wrote Hc k.
    + apply init_mining_inv in H as (pool & mining & payer & bump & L1 & A & _ & _ & _ & _ & Hcr & ->).
      apply create_account_inv in Hcr as (_ & _ & _ & _ & Hv & _ & Hf & _ & _ & _ & ->). wrote Hc k.
Qed.

Lemma run_untouched (Hinj : env_inj e) now L evs now' L' k m w :
  run e now L evs now' L' -> 0 <= now -> ledger_ok e now L -> addresses_ok e L ->
  is_mining e L k m -> m_type (wm m) = TYPE_MINING -> 0 < lamports_of L k ->
  is_pool e L (m_pool (wm m)) w -> p_type (wp w) = TYPE_POOL -> 0 < lamports_of L (m_pool (wm m)) ->
  Forall (silent (p_deposit_auth (wp w))) evs -> Forall (fun ev => ~ unchecked k ev) evs ->
  is_mining e L' k m.
Proof.
  intros R. revert w. induction R as [|now L ev L1 evs now' L' S R IH]; intros w Hn HL HA Hm Hty Hl Hp Hpt Hpl Hs Hu; [assumption|].
  inversion Hs as [|? ? Hs1 Hs2]; subst. inversion Hu as [|? ? Hu1 Hu2]; subst.
  pose proof (step_time e _ _ _ _ S) as Ht.
  assert (HL1 : ledger_ok e (time_of ev) L1) by (eapply step_ok; eassumption).
  assert (HA1 : addresses_ok e L1) by (eapply step_addresses; eassumption).
  assert (is_mining e L1 k m /\ 0 < lamports_of L1 k /\
    exists w1, is_pool e L1 (m_pool (wm m)) w1 /\ same_config w w1 /\ 0 < lamports_of L1 (m_pool (wm m))) as (Hm1 & Hl1 & w1 & Hp1 & C & Hpl1).
  { destruct S as [ts ms i L1 r Hts Hu0 Hr X|ts L1 Hts _ X].
    - pose proof (exec_untouched Hinj _ _ _ _ _ _ _ _ _ HA X Hm Hty Hp Hs1 Hu1) as E.
      unfold is_mining, owner_of, data_of, lamports_of in *. rewrite E. split; [assumption|]. split; [assumption|].
      destruct (exec_pool e Henv _ _ _ _ _ _ _ _ _ Hts HL X Hp Hpt) as (w1 & A & [B _] & D). exists w1. unfold lamports_of in D. rewrite D. auto.
    - destruct (ext_mining e _ _ _ _ X Hm Hl). destruct (ext_pool e _ _ _ _ X Hp Hpl).
      split; [assumption|]. split; [lia|]. exists w. split; [assumption|]. split; [apply same_config_refl|lia]. }
  eapply (IH w1); try assumption; [lia| |].
  - destruct C as (_ & _ & _ & _ & _ & ->). assumption.
  - destruct C as (-> & _). assumption.
Qed.

(** ** Tokens and lamports *)
Lemma exec_tokens now ts ms i L L' r T t :
  now <= ts -> ix_in_range i -> ledger_ok e now L -> exec e ts ms i L = Ok (L', r) -> is_token e L T t ->
  exists t', is_token e L' T t' /\ t_mint t' = t_mint t /\ t_owner t' = t_owner t /\
    (t_amount t' < t_amount t -> signed ms (t_owner t) /\
       ((exists a b, i = FillVault a b) /\ account_at ms 4 T \/ i = Claim /\ account_at ms 2 T)).
Proof.
  intros Hts Hr HL X Ht. destruct (exec_token e Henv _ _ _ _ _ _ _ _ _ Hts HL X Ht) as (t' & Ht' & Em & Eo).
  exists t'. split; [assumption|]. split; [assumption|]. split; [assumption|]. intros Hlt.
  destruct Ht as [Ho Hd], Ht' as [Ho' Hd'].
  apply exec_inv in X as [H _]. unfold data_of in Hd'.
  pose proof (eo_sys _ Henv). pose proof (eo_tok _ Henv). pose proof (eo_toksys _ Henv).
  destruct i; cbn [process ix_in_range] in *; unfold is_u64 in Hr; try (apply no_ret_ok in H as [H _]).
  - exfalso. apply init_pool_inv in H as (pool & mint & vault & payer & auth & bump & w0 & L1 & L2 & A & _ & _ & _ & _ & _ & ? & _ & _ & _ & _ & Hcr & Ha & ->).
    apply create_account_inv in Hcr as (_ & _ & _ & _ & Hv & _ & Hf & _ & _ & _ & ->).
    apply initialize_account_inv in Ha as (_ & _ & _ & ->). same_amount Hd' T.
  - apply fill_inv in H as (pool & mint & vault & auth & src & w1 & w' & A & Hpo & _ & Hv & Hsr & _ & _ & Hpd & _ & _ & _ & _ & Hx).
    apply spl_transfer_inv in Hx as (s & d & Hs & Hdt & _ & _ & Hsg & _ & _ & Hso & [[-> ->]|(Hne & _ & ->)]); [exfalso; same_amount Hd' T|].
    unfold data_of, put_pool in Hs, Hdt. rewrite acc_put in Hs, Hdt.
    destruct (Z.eqb_spec src pool) as [->|]; [congruence|]. destruct (Z.eqb_spec vault pool) as [->|]; [congruence|].
    destruct (Z.eq_dec src T) as [->|HsT].
    + unfold data_of in Hd. rewrite Hd in Hs. injection Hs as <-. split; [congruence|]. left. split; [eauto|at_].
    + exfalso. same_amount Hd' T.
  - exfalso. apply init_mining_inv in H as (pool & mining & payer & bump & L1 & A & _ & _ & _ & _ & Hcr & ->).
    apply create_account_inv in Hcr as (_ & _ & _ & _ & Hv & _ & Hf & _ & _ & _ & ->). same_amount Hd' T.
  - exfalso. apply deposit_inv in H as (pool & mining & auth & dm & w0 & m0 & w1 & m0' & d' & A & [] & _ & Hoo & Hde & ->).
    same_amount Hd' T.
  - exfalso. apply withdraw_inv in H as (pool & mining & auth & dm & w0 & m0 & w1 & m0' & d' & A & [] & _ & Hoo & Hde & ->).
    same_amount Hd' T.
  - destruct (process_claim e ts ms L) as [[L1 x]|] eqn:E; [|discriminate]. injection H as <- <-.
    apply claim_inv in E as (pool & mint & vault & mining & owner & auth & dest & w0 & m0 & m1 & t0 & A & _ & _ & Hv & Hmo & Hde & _ & _ & _ & _ & _ & _ & Hm & _ & Hmp & _ & _ & _ & _ & Hcl).
    cbv zeta in Hcl. destruct Hcl as [[_ ->]|[Hpos Hx]]; [exfalso; same_amount Hd' T|].
    apply spl_transfer_inv in Hx as (s & d & Hs & Hdt & _ & _ & Hsg & _ & _ & Hso & [[-> ->]|(Hne & _ & ->)]); [exfalso; same_amount Hd' T|].
    unfold data_of, put_mining in Hs, Hdt. rewrite acc_put in Hs, Hdt.
    destruct (Z.eqb_spec vault mining) as [->|]; [congruence|]. destruct (Z.eqb_spec dest mining) as [->|]; [congruence|].
    destruct (Z.eq_dec vault T) as [->|HsT].
    + unfold data_of in Hd. rewrite Hd in Hs. injection Hs as <-. split; [congruence|]. right. split; [reflexivity|at_].
    + exfalso. same_amount Hd' T.
  - exfalso. apply extend_inv in H as (pool & mining & auth & dm & w0 & m0 & w1 & m0' & d' & A & [] & _ & Hoo & Hde & ->).
    same_amount Hd' T.
  - exfalso. apply distribute_inv in H as (pool & auth & w0 & r0 & w1 & A & _ & Hsg & Hd0 & -> & Hrd & Hdi & ->). same_amount Hd' T.
  - exfalso. apply close_inv in H as (mining & owner & target & auth & pool & w0 & m0 & m1 & A & Hmo & Hto & _ & _ & _ & _ & _ & _ & Hm & _ & _ & _ & _ & _ & ->).
    same_amount Hd' T.
  - exfalso. apply change_inv in H as (pool & mining & auth & owner & od & nd & w0 & m0 & w1 & m0' & od' & nd' & A & [] & _ & _ & Hoo & Hno & _ & _ & Hde & ->).
    same_amount Hd' T.
  - exfalso. apply slash_inv in H as (auth & pool & mining & w0 & m0 & w1 & m0' & A & [] & Hde & ->). same_amount Hd' T.
  - exfalso. apply decrease_inv in H as (auth & pool & mining & w0 & m0 & m0' & A & [] & Hde & ->). same_amount Hd' T.
Qed.

Lemma lamports_put_data L k d k' : a_lamports (acc (put_data L k d) k') = a_lamports (acc L k').
Proof. rewrite acc_put. destruct (Z.eqb_spec k' k) as [->|]; reflexivity. Qed.
Lemma lamports_put_dlg L k d k' : a_lamports (acc (put_dlg L k d) k') = a_lamports (acc L k').
Proof. destruct d; [apply lamports_put_data|reflexivity]. Qed.

Lemma exec_lamports now ts ms i L L' r k :
  ledger_ok e now L -> exec e ts ms i L = Ok (L', r) -> lamports_of L' k < lamports_of L k ->
  signed ms k \/
  i = CloseMining /\ account_at ms 0 k /\
  exists m P w, is_mining e L k m /\ signed ms (m_owner (wm m)) /\
    account_at ms 4 P /\ is_pool e L P w /\ signed ms (p_deposit_auth (wp w)).
Proof.
  intros HL X Hlt. apply exec_inv in X as [H _]. unfold lamports_of in *.
  destruct i; cbn [process ix_in_range] in *; try (apply no_ret_ok in H as [H _]).
  - left. apply init_pool_inv in H as (pool & mint & vault & payer & auth & bump & w0 & L1 & L2 & A & _ & _ & _ & _ & _ & _ & _ & _ & _ & _ & Hcr & Ha & ->).
    apply create_account_inv in Hcr as (_ & _ & Hsg & Hl0 & _ & _ & _ & _ & _ & _ & ->).
    apply initialize_account_inv in Ha as (_ & _ & _ & ->).
    unfold put_pool in Hlt. rewrite !lamports_put_data, acc_ins, acc_put_lam in Hlt.
    destruct (Z.eqb_spec k vault) as [->|]; [pose proof (eo_rent _ Henv TOKEN_LEN); cbn [a_lamports] in Hlt; lia|].
    destruct (Z.eqb_spec k payer) as [->|]; [assumption|lia].
  - exfalso. apply fill_inv in H as (pool & mint & vault & auth & src & w1 & w' & _ & _ & _ & _ & _ & _ & _ & _ & _ & _ & _ & _ & Hx).
    apply spl_transfer_inv in Hx as (s & d & _ & _ & _ & _ & _ & _ & _ & _ & [[-> ->]|(_ & _ & ->)]);
      unfold put_pool in Hlt; rewrite !lamports_put_data in Hlt; lia.
  - left. apply init_mining_inv in H as (pool & mining & payer & bump & L1 & A & _ & _ & _ & _ & Hcr & ->).
    apply create_account_inv in Hcr as (_ & _ & Hsg & Hl0 & _ & _ & _ & _ & _ & _ & ->).
    unfold put_mining in Hlt. rewrite !lamports_put_data, acc_ins, acc_put_lam in Hlt.
    destruct (Z.eqb_spec k mining) as [->|]; [pose proof (eo_rent _ Henv MINING_LEN); cbn [a_lamports] in Hlt; lia|].
    destruct (Z.eqb_spec k payer) as [->|]; [assumption|lia].
  - exfalso. apply deposit_inv in H as (pool & mining & auth & dm & w0 & m0 & w1 & m0' & d' & _ & _ & _ & _ & _ & ->).
    rewrite lamports_put_dlg in Hlt. unfold put_pool, put_mining in Hlt. rewrite !lamports_put_data in Hlt. lia.
  - exfalso. apply withdraw_inv in H as (pool & mining & auth & dm & w0 & m0 & w1 & m0' & d' & _ & _ & _ & _ & _ & ->).
    rewrite lamports_put_dlg in Hlt. unfold put_pool, put_mining in Hlt. rewrite !lamports_put_data in Hlt. lia.
  - exfalso. destruct (process_claim e ts ms L) as [[L1 x]|] eqn:E; [|discriminate]. injection H as <- <-.
    apply claim_inv in E as (pool & mint & vault & mining & owner & auth & dest & w0 & m0 & m1 & t0 & _ & _ & _ & _ & _ & _ & _ & _ & _ & _ & _ & _ & _ & _ & _ & _ & _ & _ & _ & Hcl).
    cbv zeta in Hcl. destruct Hcl as [[_ ->]|[Hpos Hx]].
    + unfold put_mining in Hlt. rewrite !lamports_put_data in Hlt. lia.
    + apply spl_transfer_inv in Hx as (s & d & _ & _ & _ & _ & _ & _ & _ & _ & [[-> ->]|(_ & _ & ->)]);
        unfold put_mining in Hlt; rewrite !lamports_put_data in Hlt; lia.
  - exfalso. apply extend_inv in H as (pool & mining & auth & dm & w0 & m0 & w1 & m0' & d' & _ & _ & _ & _ & _ & ->).
    rewrite lamports_put_dlg in Hlt. unfold put_pool, put_mining in Hlt. rewrite !lamports_put_data in Hlt. lia.
  - exfalso. apply distribute_inv in H as (pool & auth & w0 & r0 & w1 & _ & _ & _ & _ & _ & _ & _ & ->).
    unfold put_pool in Hlt. rewrite !lamports_put_data in Hlt. lia.
  - right. split; [reflexivity|].
    apply close_inv in H as (mining & owner & target & auth & pool & w0 & m0 & m1 & A & Hmo & Hto & Hpo & Hs1 & Hs2 & Hpd & -> & _ & Hm & <- & _ & _ & _ & _ & ->).
    rewrite acc_ins, acc_put_lam in Hlt. destruct (Z.eqb_spec k mining) as [->|].
    + split; [at_|]. exists m0, pool, w0. split; [split; assumption|]. split; [assumption|]. split; [at_|].
      split; [split; assumption|assumption].
    + pose proof (ok_lamports e _ _ mining HL) as Hl. unfold is_u64 in Hl.
      destruct (Z.eqb_spec k target) as [->|]; cbn [a_lamports] in Hlt; lia.
  - exfalso. apply change_inv in H as (pool & mining & auth & owner & od & nd & w0 & m0 & w1 & m0' & od' & nd' & _ & _ & _ & _ & _ & _ & _ & _ & _ & ->).
    rewrite !lamports_put_dlg in Hlt. unfold put_pool, put_mining in Hlt. rewrite !lamports_put_data in Hlt. lia.
  - exfalso. apply slash_inv in H as (auth & pool & mining & w0 & m0 & w1 & m0' & _ & _ & _ & ->).
    unfold put_pool, put_mining in Hlt. rewrite !lamports_put_data in Hlt. lia.
  - exfalso. apply decrease_inv in H as (auth & pool & mining & w0 & m0 & m0' & _ & _ & _ & ->).
    unfold put_pool, put_mining in Hlt. rewrite !lamports_put_data in Hlt. lia.
Qed.
End env.

(** ** From a chain on which the program was never used *)
Lemma all_silent k evs : Forall (silent k) evs -> ~ Exists (fun ev => ~ silent k ev) evs.
Proof. intros H E. induction E; inversion H; subst; auto. Qed.

Section reached.
Context (e : env) (Henv : env_ok e).

Lemma tokens_reached now ts ms i L L' r T t :
  reached e now L -> now <= ts -> ix_in_range i -> exec e ts ms i L = Ok (L', r) -> is_token e L T t ->
  exists t', is_token e L' T t' /\ t_mint t' = t_mint t /\ t_owner t' = t_owner t /\
    (t_amount t' < t_amount t -> signed ms (t_owner t) /\
       ((exists a b, i = FillVault a b) /\ account_at ms 4 T \/ i = Claim /\ account_at ms 2 T)).
Proof. intros HL. destruct (reached_ok e Henv _ _ HL) as (A & _ & _). intros. eapply exec_tokens; eassumption. Qed.

Lemma lamports_reached now ts ms i L L' r k :
  reached e now L -> exec e ts ms i L = Ok (L', r) -> lamports_of L' k < lamports_of L k ->
  signed ms k \/
  i = CloseMining /\ account_at ms 0 k /\
  exists m P w, is_mining e L k m /\ signed ms (m_owner (wm m)) /\
    account_at ms 4 P /\ is_pool e L P w /\ signed ms (p_deposit_auth (wp w)).
Proof. intros HL. destruct (reached_ok e Henv _ _ HL) as (A & _ & _). intros. eapply exec_lamports; eassumption. Qed.

Lemma rewards_reached now L evs now' L' k m :
  reached e now L -> run e now L evs now' L' -> is_mining e L k m -> 0 < lamports_of L k ->
  Forall (silent (m_owner (wm m))) evs ->
  exists m', is_mining e L' k m' /\ m_owner (wm m') = m_owner (wm m) /\ m_pool (wm m') = m_pool (wm m) /\
    m_unclaimed (wm m) <= m_unclaimed (wm m') /\ lamports_of L k <= lamports_of L' k.
Proof.
  intros HL R Hm Hl Hs. destruct (reached_ok e Henv _ _ HL) as (A & _ & B).
  destruct (run_rewards e Henv _ _ _ _ _ _ _ R B A Hs Hm Hl) as (m' & H1 & (H2 & H3 & _) & H4 & H5). exists m'. auto.
Qed.

Lemma untouched_reached (Hinj : env_inj e) now L evs now' L' k m w :
  reached e now L -> run e now L evs now' L' ->
  is_mining e L k m -> m_type (wm m) = TYPE_MINING -> 0 < lamports_of L k ->
  is_pool e L (m_pool (wm m)) w -> p_type (wp w) = TYPE_POOL -> 0 < lamports_of L (m_pool (wm m)) ->
  Forall (silent (p_deposit_auth (wp w))) evs -> Forall (fun ev => ~ unchecked k ev) evs ->
  is_mining e L' k m.
Proof.
  intros HL R. destruct (reached_ok e Henv _ _ HL) as (A & C & B). intros. eapply run_untouched; eassumption.
Qed.

Context (now : Z) (L : ledger) (evs : list event) (now' : Z) (L' : ledger) (k : pubkey) (w : wpool)
  (HL : reached e now L) (R : run e now L evs now' L') (Hk : is_pool e L k w)
  (Hty : p_type (wp w) = TYPE_POOL) (Hl : 0 < lamports_of L k).

Lemma powers_reached : exists w', is_pool e L' k w' /\
  pool_powers now' (fun ro => Exists (fun ev => ~ silent (holder w ro) ev) evs) w w'.
Proof.
  destruct (reached_ok e Henv _ _ HL) as (A & _ & B).
  destruct (run_powers e Henv _ _ _ _ _ _ _ R B A Hk Hty Hl) as (w' & H1 & _ & H2). eauto.
Qed.
Lemma stake_reached : Forall (silent (p_deposit_auth (wp w))) evs ->
  exists w', is_pool e L' k w' /\ forall d, day_start now' <= d ->
    p_total (wp w') - due d (wp_diffs w') = p_total (wp w) - due d (wp_diffs w).
Proof.
  intros Hs. destruct powers_reached as (w' & A & P). exists w'. split; [assumption|].
  apply (pp_stake _ _ _ _ P). apply all_silent. exact Hs.
Qed.
Lemma index_reached : Forall (silent (p_distribute_auth (wp w))) evs ->
  exists w', is_pool e L' k w' /\ p_index (wp w') = p_index (wp w) /\ wp_ci w' = wp_ci w /\
    p_avail (wp w) <= p_avail (wp w').
Proof.
  intros Hs. destruct powers_reached as (w' & A & P). exists w'. split; [assumption|].
  apply all_silent in Hs. destruct (pp_index _ _ _ _ P Hs). pose proof (pp_spent _ _ _ _ P Hs). auto.
Qed.
Lemma filled_reached : Forall (silent (p_fill_auth (wp w))) evs ->
  exists w', is_pool e L' k w' /\ p_avail (wp w') <= p_avail (wp w) /\ p_ends_at (wp w') = p_ends_at (wp w).
Proof.
  intros Hs. destruct powers_reached as (w' & A & P). exists w'. split; [assumption|].
  apply all_silent in Hs. split; [exact (pp_filled _ _ _ _ P Hs)|exact (pp_until _ _ _ _ P Hs)].
Qed.
Lemma pool_reached : (forall ro, Forall (silent (holder w ro)) evs) -> is_pool e L' k w.
Proof.
  intros Hs. destruct powers_reached as (w' & A & P).
  rewrite <- (pp_same _ _ _ _ P); [assumption|]. intros ro. apply all_silent. apply Hs.
Qed.
End reached.

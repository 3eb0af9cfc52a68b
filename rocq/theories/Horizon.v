(** Dates in the pools' schedules: whole days, at most 365 days ahead; so a schedule whose
    past dates were removed always has room. *)
From stdpp Require Import gmap.
From Verif Require Import Base OMap State Spec EffectSpec Ledger Program ResLemmas TreeLemmas AccrualLemmas
  RefreshLemmas FrameLemmas WfLemmas LedgerLemmas LedgerSpec CodecLemmas History HistoryLemmas Changes AccessLemmas
  HistoryThms ReachThms CoreSteps EffectLemmas EffectMethods EffectThms EffectMore EffectCompare.

Definition near (now : Z) (w : wpool) : Prop :=
  dates (fun k => k mod 86400 = 0 /\ k <= day_start now + 31536000) (wp_diffs w).

Lemma near_mono now now' w : now <= now' -> near now w -> near now' w.
Proof.
  intros H N k v Hin. destruct (N k v Hin) as [A B]. split; [assumption|].
  rewrite <- !bod_day_start in *. pose proof (bod_mono now now' H). lia.
Qed.
Lemma near_nil now p ci : near now (WPool p [] ci).
Proof. intros k v []. Qed.
Lemma near_diffs now w w' : wp_diffs w' = wp_diffs w -> near now w -> near now w'.
Proof. unfold near. intros ->. auto. Qed.
Lemma near_after now d w w' : wp_diffs w' = after d (wp_diffs w) -> near now w -> near now w'.
Proof.
  unfold near. intros -> H k v Hin. apply filter_In in Hin as [Hin _]. eapply H. eassumption.
Qed.
Lemma near_keys now t w w' :
  map fst (wp_diffs w') = map fst t -> (forall k v, In (k, v) t -> In (k, v) (wp_diffs w)) -> near now w -> near now w'.
Proof.
  intros E Hi H. unfold near. apply (dates_keys _ t); [congruence|]. intros k v Hin. eapply H. apply Hi. eassumption.
Qed.
Lemma near_scheduled ts cap p x w w' :
  ascending (wp_diffs w) -> p <> LNone -> scheduled cap (expiry p ts) x (wp_diffs w) (wp_diffs w') -> near ts w -> near ts w'.
Proof.
  intros Ha Hp [S1 S2] H k v Hin.
  assert (Hk : has_date k (wp_diffs w) \/ k = expiry p ts).
  { destruct (oget (expiry p ts) (wp_diffs w)) eqn:E.
    - apply S1; [left; rewrite has_date_oget by assumption; congruence|]. exists v. assumption.
    - destruct (Z_lt_le_dec (Z.of_nat (length (wp_diffs w))) cap).
      + apply S1; [right; assumption|]. exists v. assumption.
      + left. rewrite S2 in Hin; [exists v; assumption| |assumption]. rewrite has_date_oget by assumption. congruence. }
  destruct Hk as [[v0 Hk]| ->]; [eapply H; eassumption|].
  destruct (expiry_facts p ts Hp) as (A & _ & B). split; [assumption|]. rewrite B.
  destruct p; cbn [days_of]; try congruence; lia.
Qed.

Section env.
Context (e : env) (Henv : env_ok e).

Definition all_near (now : Z) (L : ledger) : Prop := forall k w, is_pool e L k w -> near now w.

Lemma near_put now L k d :
  all_near now L -> (forall w, d = DPool w -> owner_of L k = program_id e -> near now w) -> all_near now (put_data L k d).
Proof.
  intros HL Hd q w [H1 H2]. destruct (Z.eq_dec k q) as [->|Hne].
  - rewrite owner_put in H1. rewrite data_put in H2. auto.
  - unfold is_pool, owner_of, data_of in *. rewrite acc_put_data_ne in H1, H2 by assumption. apply (HL q). split; assumption.
Qed.
Lemma near_put_mining now L k m : all_near now L -> all_near now (put_mining L k m).
Proof. intros. apply near_put; [assumption|discriminate]. Qed.
Lemma near_put_token now L k t : all_near now L -> all_near now (put_data L k (DToken t)).
Proof. intros. apply near_put; [assumption|discriminate]. Qed.
Lemma near_put_dlg now L k d : all_near now L -> all_near now (put_dlg L k d).
Proof. destruct d; [apply near_put_mining|auto]. Qed.
Lemma near_put_pool now L k w : all_near now L -> near now w -> all_near now (put_pool L k w).
Proof. intros. apply near_put; [assumption|]. intros w0 E _. injection E as <-. assumption. Qed.
Lemma near_insert now L k l o d :
  all_near now L -> (forall w, d = DPool w -> near now w) -> all_near now (<[k := Account l o d]> L).
Proof.
  intros HL Hd q w [H1 H2]. unfold is_pool, owner_of, data_of in *. destruct (Z.eq_dec k q) as [->|Hne].
  - rewrite acc_insert in H2. auto.
  - rewrite acc_insert_ne in H1, H2 by assumption. apply (HL q). split; assumption.
Qed.
Lemma near_put_lamports now L k x : all_near now L -> all_near now (put_lamports L k x).
Proof.
  intros HL q w [H1 H2]. unfold put_lamports, is_pool, owner_of, data_of in *. destruct (Z.eq_dec k q) as [->|Hne].
  - rewrite acc_insert in H1, H2. apply (HL q). split; assumption.
  - rewrite acc_insert_ne in H1, H2 by assumption. apply (HL q). split; assumption.
Qed.
Lemma near_transfer now ms L src dst auth a L' :
  all_near now L -> spl_transfer ms L src dst auth a = Ok L' -> all_near now L'.
Proof.
  intros HL H. apply spl_transfer_inv in H as (s & d & _ & _ & _ & _ & _ & _ & _ & _ & [[_ ->]|(_ & _ & ->)]); [assumption|].
  apply near_put_token, near_put_token. assumption.
Qed.
Lemma near_create now ms L from to lam space owner L' :
  all_near now L -> create_account ms L from to lam space owner = Ok L' -> all_near now L'.
Proof.
  intros HL H. apply create_account_inv in H as (_ & _ & _ & _ & _ & _ & _ & _ & _ & _ & ->).
  apply near_insert; [apply near_put_lamports; assumption|]. intros w E. unfold zeros in E.
  destruct (space =? 0); [discriminate|]. destruct (space =? MINING_LEN); [discriminate|].
  destruct (space =? POOL_LEN); [injection E as <-; apply near_nil|discriminate].
Qed.

Lemma near_exec now ts ms i L L' r :
  now <= ts -> 0 <= ts -> ix_in_range i -> ledger_ok e now L -> all_near now L ->
  exec e ts ms i L = Ok (L', r) -> all_near ts L'.
Proof.
  intros Hts Hts0 Hi HL HN H. apply exec_inv in H as [H _].
  apply (ledger_ok_mono e now ts) in HL; [|assumption].
  assert (HN' : all_near ts L) by (intros k w Hw; exact (near_mono now ts w Hts (HN k w Hw))).
  clear HN Hts. destruct i; cbn [process ix_in_range] in *; try (apply no_ret_ok in H as [H _]).
  - apply init_pool_inv in H as (pool & mint & vault & payer & auth & bump & w & L1 & L2 & _ & _ & _ & _ & _ & _ & _ & _ & _ & _ & _ & Hc & Ha & ->).
    apply near_put_pool; [|apply near_nil]. apply initialize_account_inv in Ha as (_ & _ & _ & ->).
    apply near_put_token. eapply near_create; eassumption.
  - apply fill_inv in H as (pool & mint & vault & auth & src & w & w' & _ & Ho & _ & _ & _ & _ & _ & Hd & _ & _ & _ & Hf & Ht).
    eapply near_transfer; [|exact Ht]. apply near_put_pool; [assumption|].
    apply fill_effect in Hf as (_ & _ & _ & _ & E & _). eapply near_diffs; [exact E|]. apply (HN' pool). split; assumption.
  - apply init_mining_inv in H as (pool & mining & payer & bump & L1 & _ & _ & _ & _ & Hf & Hc & ->).
    apply near_put_mining. eapply near_create; eassumption.
  - apply deposit_inv in H as (pool & mining & auth & dm & w & m & w' & m' & d' & _ & Hc & _ & Ho & Hd & ->).
    pose proof (ok_ctx _ _ _ _ _ _ _ _ _ _ HL Hc) as [Hw Hm].
    apply (deposit_effect ts) in Hd as (Hp & _ & _ & _ & S & _); [|assumption|assumption|eapply ok_dlg; eassumption|unfold is_u64 in Hi; lia].
    apply near_put_dlg, near_put_mining, near_put_pool; [assumption|].
    eapply near_scheduled; [apply Hw|exact Hp|exact S|]. apply (HN' pool). destruct Hc. split; assumption.
  - apply withdraw_inv in H as (pool & mining & auth & dm & w & m & w' & m' & d' & _ & Hc & _ & Ho & Hd & ->).
    pose proof (ok_ctx _ _ _ _ _ _ _ _ _ _ HL Hc) as [Hw Hm].
    apply (withdraw_effect ts) in Hd as (_ & _ & _ & S & _); [|assumption|assumption|eapply ok_dlg; eassumption].
    apply near_put_dlg, near_put_mining, near_put_pool; [assumption|].
    eapply near_after; [exact S|]. apply (HN' pool). destruct Hc. split; assumption.
  - destruct (process_claim e ts ms L) as [[L1 amt]|] eqn:E; cbn [rbind] in H; [|discriminate]. injection H as <- <-.
    apply claim_inv in E as (pool & mint & vault & mining & owner & auth & dest & w & m & m1 & t & _ & Hp & _ & _ & Hmo & _ & _ & _ & _ & _ & Hpd & _ & Hmd & _ & _ & _ & _ & Hr & Hz & Hcase).
    cbv zeta in Hcase. destruct Hcase as [[_ ->]|[_ Ht]]; [apply near_put_mining; assumption|].
    eapply near_transfer; [|exact Ht]. apply near_put_mining. assumption.
  - apply extend_inv in H as (pool & mining & auth & dm & w & m & w' & m' & d' & _ & Hc & _ & Ho & Hd & ->).
    pose proof (ok_ctx _ _ _ _ _ _ _ _ _ _ HL Hc) as [Hw Hm].
    apply (extend_effect ts) in Hd; [|assumption|assumption|assumption|eapply ok_dlg; eassumption|unfold is_u64 in Hi; lia|unfold is_u64 in Hi; lia].
    cbv zeta in Hd. destruct Hd as (_ & Hp & _ & _ & _ & S & _).
    apply near_put_dlg, near_put_mining, near_put_pool; [assumption|].
    eapply near_scheduled; [apply Hw|exact Hp|exact S|]. apply (HN' pool). destruct Hc. split; assumption.
  - apply distribute_inv in H as (pool & auth & w & r0 & w' & _ & Ho & _ & Hd & _ & Hr & Hdi & ->).
    pose proof (ok_pool _ _ _ _ _ HL Ho Hd) as Hw.
    apply (distribute_effect ts) in Hdi as (_ & _ & _ & S & _); [|assumption|lia].
    apply near_put_pool; [assumption|]. eapply near_after; [exact S|]. apply (HN' pool). split; assumption.
  - apply close_inv in H as (mining & owner & target & auth & pool & w & m & m1 & _ & Hmo & Hto & _ & _ & _ & _ & _ & _ & _ & _ & _ & _ & _ & Hlt & ->).
    apply near_insert; [apply near_put_lamports; assumption|discriminate].
  - apply change_inv in H as (pool & mining & auth & owner & od & nd & w & m & w' & m' & od' & nd' & _ & Hc & _ & _ & Hoo & Hno & _ & _ & Hd & ->).
    pose proof (ok_ctx _ _ _ _ _ _ _ _ _ _ HL Hc) as [Hw Hm].
    apply (change_effect ts) in Hd as (_ & _ & S & _); [|assumption|assumption|eapply ok_dlg; eassumption|eapply ok_dlg; eassumption|unfold is_u64 in Hi; lia].
    apply near_put_dlg, near_put_dlg, near_put_mining, near_put_pool; [assumption|].
    eapply near_diffs; [exact S|]. apply (HN' pool). destruct Hc. split; assumption.
  - apply slash_inv in H as (auth & pool & mining & w & m & w' & m' & _ & Hc & Hd & ->).
    pose proof (ok_ctx _ _ _ _ _ _ _ _ _ _ HL Hc) as [Hw Hm].
    apply (slash_effect ts) in Hd as (m1 & _ & _ & _ & _ & _ & _ & S); [|assumption|assumption|unfold is_u64 in Hi; lia|unfold is_u64 in Hi; lia].
    apply near_put_mining, near_put_pool; [assumption|].
    assert (Hnw : near ts w) by (apply (HN' pool); destruct Hc; split; assumption).
    destruct expiration.
    + destruct S as (_ & _ & (_ & _ & K & _) & _). eapply near_keys; [exact K| |exact Hnw].
      intros k v Hin. apply filter_In in Hin. apply Hin.
    + eapply near_after; [apply S|exact Hnw].
  - apply decrease_inv in H as (auth & pool & mining & w & m & m' & _ & Hc & Hd & ->).
    apply near_put_mining. assumption.
Qed.

Lemma near_run now L evs now' L' :
  run e now L evs now' L' -> 0 <= now -> ledger_ok e now L -> all_near now L -> all_near now' L'.
Proof.
  intros R. induction R as [|now L ev L1 evs now' L' S R IH]; intros Hn HL HN; [assumption|].
  pose proof (step_time _ _ _ _ _ S) as [Ht [Ht0 _]].
  apply IH; [assumption|exact (step_ok e Henv now L ev L1 Hn S HL)|].
  destruct S as [ts ms i L1 r Hts [Hts0 _] Hi H|ts L1 Hts [Hts0 _] H]; cbn [time_of] in *.
  - exact (near_exec now ts ms i L L1 r Hts Hts0 Hi HL HN H).
  - intros k w [Ho Hd]. destruct (H k) as (_ & H2 & H3). unfold owner_of, data_of in *.
    destruct (Z.eq_dec (a_owner (acc L k)) (program_id e)) as [Ho'|Hno].
    + destruct (H2 Ho') as [(A & B & C)|[A B]].
      * apply (near_mono now ts); [assumption|]. apply (HN k). unfold is_pool, owner_of, data_of. split; congruence.
      * rewrite B in Hd. discriminate.
    + specialize (H3 Hno Ho). rewrite Hd in H3. apply all_zero_pool in H3 as ->. apply near_nil.
Qed.

Lemma reached_near now L P w : reached e now L -> is_pool e L P w -> near now w.
Proof.
  intros (L0 & evs & G & R) Hw. eapply (near_run _ _ _ _ _ R); [lia|apply genesis_ok; [lia|assumption]| |eassumption].
  intros k v [Ho Hd]. destruct (G k) as [_ Hz]. unfold owner_of, data_of in *. specialize (Hz Ho).
  rewrite Hd in Hz. apply all_zero_pool in Hz as ->. apply near_nil.
Qed.

(** ** Room *)
Lemma ascending_nodup t : ascending t -> NoDup (map fst t).
Proof.
  induction t as [|[k v] r IH]; intros H; cbn [map fst]; [constructor|]. destruct H as [H1 H2].
  constructor; [|auto]. intros Hin. apply in_map_iff in Hin as ([k' v'] & E & Hin).
  cbn in E. subst. apply H1 in Hin. lia.
Qed.

Lemma room_left now w d :
  near now w -> ascending (wp_diffs w) -> dates (fun k => day_start now < k) (wp_diffs w) ->
  d mod 86400 = 0 -> day_start now < d <= day_start now + 31536000 ->
  has_date d (wp_diffs w) \/ Z.of_nat (length (wp_diffs w)) < 365.
Proof.
  intros N Ha Hd Hm Hr. destruct (oget d (wp_diffs w)) eqn:E; [left; rewrite has_date_oget by assumption; congruence|right].
  set (f := fun k => Z.to_nat ((k - day_start now) / 86400)).
  assert (Hs : day_start now mod 86400 = 0) by (unfold day_start; apply Z.mod_mul; discriminate).
  assert (Hday : forall k, k mod 86400 = 0 -> k - day_start now = 86400 * ((k - day_start now) / 86400)).
  { intros k Hk. apply Z.div_exact; [discriminate|]. rewrite Zminus_mod, Hk, Hs. reflexivity. }
  assert (Hall : forall k, In k (d :: map fst (wp_diffs w)) -> k mod 86400 = 0 /\ day_start now < k <= day_start now + 31536000).
  { intros k [<-|Hin]; [auto|]. apply in_map_iff in Hin as ([k' v'] & <- & Hin). cbn [fst].
    destruct (N _ _ Hin). pose proof (Hd _ _ Hin). cbv beta in *. split; [assumption|lia]. }
  assert (Hinj : forall a b, In a (d :: map fst (wp_diffs w)) -> In b (d :: map fst (wp_diffs w)) -> f a = f b -> a = b).
  { intros a b H1 H2 Ef. apply Hall in H1 as [M1 R1], H2 as [M2 R2]. apply Hday in M1, M2. unfold f in Ef. lia. }
  assert (Hnd : List.NoDup (map f (d :: map fst (wp_diffs w)))).
  { assert (Hn : List.NoDup (d :: map fst (wp_diffs w))).
    { constructor; [|apply ascending_nodup; assumption].
      intros Hin. apply in_map_iff in Hin as ([k' v'] & Ek & Hin). cbn in Ek. subst.
      rewrite (in_oget _ _ _ Ha Hin) in E. discriminate. }
    revert Hn Hinj. generalize (d :: map fst (wp_diffs w)) as l. induction l as [|a l IH]; intros Hn Hinj; [constructor|].
    inversion Hn; subst. cbn [map]. constructor.
    - intros Hin. apply in_map_iff in Hin as (b & Eb & Hin).
      assert (b = a) by (apply Hinj; [right; assumption|left; reflexivity|assumption]). subst. contradiction.
    - apply IH; [assumption|]. intros x y Hx Hy. apply Hinj; right; assumption. }
  assert (Hincl : incl (map f (d :: map fst (wp_diffs w))) (List.seq 1 365)).
  { intros n Hin. apply in_map_iff in Hin as (k & <- & Hin). apply Hall in Hin as [M R].
    apply in_seq. apply Hday in M. unfold f. lia. }
  pose proof (NoDup_incl_length Hnd Hincl) as Hlen. rewrite map_length in Hlen. cbn [length] in Hlen.
  rewrite map_length, seq_length in Hlen. lia.
Qed.

(** a deposit or extension on a pool whose past expiries were removed is always scheduled *)
Lemma always_scheduled now ts P w p L :
  reached e now L -> now <= ts -> is_pool e L P w -> p <> LNone ->
  dates (fun k => day_start ts < k) (wp_diffs w) ->
  has_date (expiry p ts) (wp_diffs w) \/ Z.of_nat (length (wp_diffs w)) < 365.
Proof.
  intros HL Hts Hw Hp Hd. pose proof (near_mono _ _ _ Hts (reached_near _ _ _ _ HL Hw)) as N.
  destruct (reached_ok e Henv _ _ HL) as (O & _). destruct Hw as [Ho Hdd].
  pose proof (ok_pool e now L P w O Ho Hdd) as W.
  destruct (expiry_facts p ts Hp) as (A & _ & B).
  apply (room_left ts); [assumption|apply W|assumption|assumption|]. rewrite B.
  destruct p; cbn [days_of]; try congruence; lia.
Qed.

Lemma deposit_always_scheduled now ts ms a p o d L L' r P w :
  reached e now L -> now <= ts -> is_u64 a -> exec e ts ms (DepositMining a p o d) L = Ok (L', r) ->
  account_at ms 0 P -> is_pool e L P w -> dates (fun k => day_start ts < k) (wp_diffs w) ->
  exists w', is_pool e L' P w' /\
    forall k, at_date k (wp_diffs w') = at_date k (wp_diffs w) + (if k =? expiry p ts then a * (weight_of p - 1) else 0).
Proof.
  intros HL Hts Ha H HP Hw Hd.
  apply (deposit_on_ledger e Henv now) in H as (P0 & k & D & w0 & m & m1 & w' & m' & A1 & A2 & A3 & A4 & A5 & A6 & A7 & Hp & _ & _ & _ & _ & _ & _ & S & _); [|assumption..].
  assert (P0 = P) by (eapply at_fun; eassumption). subst P0.
  assert (w0 = w) by (eapply pool_fun; eassumption). subst w0.
  exists w'. split; [assumption|]. apply S. eapply always_scheduled; eassumption.
Qed.

Lemma extend_always_scheduled now ts ms op np st b a o d L L' r P w :
  reached e now L -> now <= ts -> is_u64 b -> is_u64 a ->
  exec e ts ms (ExtendStake op np st b a o d) L = Ok (L', r) ->
  account_at ms 0 P -> is_pool e L P w -> dates (fun k => day_start ts < k) (wp_diffs w) ->
  exists w', is_pool e L' P w' /\
    forall k, at_date k (wp_diffs w') =
      at_date k (wp_diffs w) + (if k =? expiry np ts then (b + a) * (weight_of np - 1) else 0).
Proof.
  intros HL Hts Hb Ha H HP Hw Hd. apply (extend_on_ledger e Henv now) in H; [|assumption..]. cbv zeta in H.
  destruct H as (P0 & k & D & w0 & m & m1 & t & w' & m' & A1 & _ & _ & A4 & _ & A6 & _ & _ & Hnp & _ & _ & _ & _ & _ & _ & _ & _ & S & _).
  assert (P0 = P) by (eapply at_fun; eassumption). subst P0.
  assert (w0 = w) by (eapply pool_fun; eassumption). subst w0.
  exists w'. split; [assumption|]. apply S. eapply always_scheduled; eassumption.
Qed.

(** after a distribution or withdrawal of the day no past date is left *)
Lemma distribution_clears now ts ms L L' r P w' :
  reached e now L -> now <= ts -> exec e ts ms DistributeRewards L = Ok (L', r) ->
  account_at ms 0 P -> is_pool e L' P w' -> dates (fun k => day_start ts < k) (wp_diffs w').
Proof.
  intros HL Hts H HP Hw. apply (distribute_on_ledger e Henv now) in H as (P0 & v & w1 & A1 & A2 & A3 & A4); [|assumption..].
  assert (P0 = P) by (eapply at_fun; eassumption). subst P0.
  assert (w1 = w') by (eapply pool_fun; eassumption). subst w1.
  cbv zeta in A4. destruct A4 as (_ & _ & _ & -> & _). intros k x Hin. apply filter_In in Hin as [_ Hin].
  cbn [fst] in Hin. apply Z.ltb_lt in Hin. assumption.
Qed.

(** a deposit whose drop is lost: the weight is added for good *)
Lemma deposit_unscheduled now ts ms a p o d L L' r k m w P :
  reached e now L -> now <= ts -> is_u64 a -> exec e ts ms (DepositMining a p o d) L = Ok (L', r) ->
  account_at ms 0 P -> account_at ms 1 k -> is_pool e L P w -> is_mining e L k m ->
  exists w' m', is_pool e L' P w' /\ is_mining e L' k m' /\
    (~ has_date (expiry p ts) (wp_diffs w) -> 365 <= Z.of_nat (length (wp_diffs w)) ->
       wp_diffs w' = wp_diffs w /\ p_total (wp w) + a * weight_of p <= p_total (wp w')) /\
    (~ has_date (expiry p ts) (wm_diffs m) -> 50 <= Z.of_nat (length (after (day_start ts) (wm_diffs m))) ->
       unlocked_stake m' = unlocked_stake m + a * weight_of p).
Proof.
  intros HL Hts Ha H HP Hk Hw Hm.
  apply (deposit_on_ledger e Henv now) in H as (P0 & k0 & D & w0 & m0 & m1 & w' & m' & A1 & A2 & A3 & A4 & A5 & A6 & A7 & Hp & R & OS & Sh & Sm & _ & T & S & _); [|assumption..].
  assert (P0 = P) by (eapply at_fun; eassumption). subst P0.
  assert (k0 = k) by (eapply at_fun; eassumption). subst k0.
  assert (w0 = w) by (eapply pool_fun; eassumption). subst w0.
  assert (m0 = m) by (eapply mining_fun; eassumption). subst m0.
  exists w', m'. split; [assumption|]. split; [assumption|]. split.
  - intros Hno Hlen. split; [apply S; assumption|]. rewrite T. unfold if_other, is_u64 in *. destruct (D =? k); lia.
  - intros Hno Hlen. rewrite <- (rf_diffs _ _ _ _ R) in Hlen.
    assert (E : wm_diffs m' = wm_diffs m1).
    { apply Sm; [|assumption]. intros [v Hv]. apply Hno. exists v. rewrite (rf_diffs _ _ _ _ R) in Hv.
      apply filter_In in Hv. apply Hv. }
    unfold unlocked_stake. rewrite E, Sh, (rf_diffs _ _ _ _ R), (rf_share _ _ _ _ R).
    assert (Es : forall t, total t = due (day_start ts) t + total (after (day_start ts) t)).
    { clear. intros t. induction t as [|[k v] r IH]; [reflexivity|]. unfold after in *. cbn [due filter fst total].
      destruct (Z.leb_spec k (day_start ts)), (Z.ltb_spec (day_start ts) k); cbn [total]; lia. }
    rewrite (Es (wm_diffs m)). lia.
Qed.

End env.

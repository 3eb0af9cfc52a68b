(** Well-formedness of ledgers is preserved by every event. *)
From stdpp Require Import gmap.
From Verif Require Import Base OMap State Ledger Program ResLemmas LedgerLemmas CodecLemmas
  FrameLemmas WfLemmas History.

Lemma all_zero_pool w : all_zero (DPool w) = true -> w = zero_wpool.
Proof.
  destruct w as [[] ? ?]. cbn [all_zero]. intros H.
  repeat (apply andb_true_iff in H as [H ?]).
  repeat match goal with H : (_ =? _) = true |- _ => apply Z.eqb_eq in H; subst end.
  unfold tmap_eqb in *. repeat match goal with H : bool_decide _ = true |- _ => apply bool_decide_eq_true in H; subst end.
  reflexivity.
Qed.
Lemma all_zero_mining w : all_zero (DMining w) = true -> w = zero_wmining.
Proof.
  destruct w as [[] ?]. cbn [all_zero]. intros H.
  repeat (apply andb_true_iff in H as [H ?]).
  repeat match goal with H : (_ =? _) = true |- _ => apply Z.eqb_eq in H; subst end.
  unfold tmap_eqb in *. repeat match goal with H : bool_decide _ = true |- _ => apply bool_decide_eq_true in H; subst end.
  reflexivity.
Qed.

Lemma all_zero_ok now a :
  0 <= now -> all_zero (a_data a) = true ->
  match a_data a with DPool w => pool_wf now w | DMining m => mining_wf m | _ => True end.
Proof.
  intros Hn H. destruct (a_data a); auto.
  - apply all_zero_pool in H as ->. apply zero_pool_wf. assumption.
  - apply all_zero_mining in H as ->. apply zero_mining_wf.
Qed.

Lemma genesis_ok e now L : 0 <= now -> genesis e L -> ledger_ok e now L.
Proof.
  intros Hn H k. destruct (H k) as [H1 H2]. split; [assumption|].
  intros Ho. apply all_zero_ok; auto.
Qed.

Lemma ledger_ok_mono e now now' L : now <= now' -> ledger_ok e now L -> ledger_ok e now' L.
Proof.
  intros Hn H k. destruct (H k) as [H1 H2]. split; [assumption|].
  intros Ho. specialize (H2 Ho). destruct (a_data (acc L k)); auto.
  eapply pool_wf_mono; eassumption.
Qed.

Section with_env.
Context (e : env) (Henv : env_ok e).

Lemma ok_insert now L k a :
  ledger_ok e now L -> account_ok e now a -> ledger_ok e now (<[k := a]> L).
Proof.
  intros HL Ha k'. destruct (Z.eq_dec k k') as [->|].
  - rewrite acc_insert. assumption.
  - rewrite acc_insert_ne by assumption. apply HL.
Qed.

Lemma ok_put_pool now L k w :
  ledger_ok e now L -> pool_wf now w -> ledger_ok e now (put_pool L k w).
Proof.
  intros HL Hw. apply ok_insert; [assumption|]. destruct (HL k) as [[H1 _] _].
  split; [split; [exact H1|exact I]|]. intros _. exact Hw.
Qed.
Lemma ok_put_mining now L k w :
  ledger_ok e now L -> mining_wf w -> ledger_ok e now (put_mining L k w).
Proof.
  intros HL Hw. apply ok_insert; [assumption|]. destruct (HL k) as [[H1 _] _].
  split; [split; [exact H1|exact I]|]. intros _. exact Hw.
Qed.
Lemma ok_put_dlg now L k d :
  ledger_ok e now L -> odlg_wf d -> ledger_ok e now (put_dlg L k d).
Proof. destruct d; cbn; [apply ok_put_mining|auto]. Qed.
Lemma ok_put_token now L k t :
  ledger_ok e now L -> is_u64 (t_amount t) -> ledger_ok e now (put_data L k (DToken t)).
Proof.
  intros HL Hw. apply ok_insert; [assumption|]. destruct (HL k) as [[H1 _] _].
  split; [split; [exact H1|exact Hw]|]. intros _. exact I.
Qed.
Lemma ok_put_lamports now L k x :
  ledger_ok e now L -> is_u64 x -> ledger_ok e now (put_lamports L k x).
Proof.
  intros HL Hx. apply ok_insert; [assumption|]. destruct (HL k) as [[H1 H2] H3].
  split; [split; [exact Hx|exact H2]|]. exact H3.
Qed.

Lemma ok_pool now L k w :
  ledger_ok e now L -> owner_of L k = program_id e -> data_of L k = DPool w -> pool_wf now w.
Proof.
  intros HL Ho Hd. destruct (HL k) as [_ H]. unfold owner_of, data_of in *.
  specialize (H Ho). rewrite Hd in H. exact H.
Qed.
Lemma ok_mining now L k w :
  ledger_ok e now L -> owner_of L k = program_id e -> data_of L k = DMining w -> mining_wf w.
Proof.
  intros HL Ho Hd. destruct (HL k) as [_ H]. unfold owner_of, data_of in *.
  specialize (H Ho). rewrite Hd in H. exact H.
Qed.
Lemma ok_token now L k t :
  ledger_ok e now L -> data_of L k = DToken t -> is_u64 (t_amount t).
Proof. intros HL Hd. destruct (HL k) as [[_ H] _]. unfold data_of in Hd. rewrite Hd in H. exact H. Qed.
Lemma ok_lamports now L k : ledger_ok e now L -> is_u64 (a_lamports (acc L k)).
Proof. intros HL. apply (HL k). Qed.

Lemma ok_dlg now L dm mining :
  ledger_ok e now L -> owner_of L dm = program_id e -> dlg_wf (dlg_of L dm mining).
Proof.
  intros HL Ho. unfold dlg_of. destruct (mining =? dm); cbn; [exact I|].
  destruct (load_mining (a_data (acc L dm))) as [m|] eqn:E; [|exact I].
  apply load_mining_ok in E. eapply ok_mining; eassumption.
Qed.

Lemma ok_ctx now ms L owner pool mining auth w m :
  ledger_ok e now L -> stake_ctx e ms L owner pool mining auth w m -> pool_wf now w /\ mining_wf m.
Proof.
  intros HL []. split; [apply (ok_pool now L pool)|apply (ok_mining now L mining)]; assumption.
Qed.

Lemma transfer_ok now ms L src dst auth a L' :
  ledger_ok e now L -> 0 <= a -> spl_transfer ms L src dst auth a = Ok L' -> ledger_ok e now L'.
Proof.
  intros HL Ha H. apply spl_transfer_inv in H as (s & d & Hs & Hd & _ & _ & _ & Hle & _ & _ & [[_ ->]|(Hne & Hlt & ->)]);
    [assumption|].
  pose proof (ok_token _ _ _ _ HL Hs). pose proof (ok_token _ _ _ _ HL Hd).
  apply ok_put_token; [apply ok_put_token; [assumption|]|]; cbn; unfold is_u64 in *; lia.
Qed.

Lemma create_ok now ms L from to lam space owner L' :
  ledger_ok e now L -> 0 <= now -> 0 <= lam ->
  create_account ms L from to lam space owner = Ok L' -> ledger_ok e now L'.
Proof.
  intros HL Hn Hlam H. apply create_account_inv in H as (_ & _ & _ & _ & _ & _ & _ & _ & _ & Hle & ->).
  pose proof (ok_lamports _ _ from HL).
  apply ok_insert; [apply ok_put_lamports; [assumption|unfold is_u64 in *; lia]|].
  assert (Hz : all_zero (zeros space) = true).
  { unfold zeros. destruct (space =? 0); [reflexivity|]. destruct (space =? MINING_LEN); [reflexivity|].
    destruct (space =? POOL_LEN); reflexivity. }
  split; [split; [cbn; unfold is_u64 in *; lia|]|].
  - cbn [a_data]. revert Hz. destruct (zeros space); intros Hz; try exact I. discriminate Hz.
  - intros _. apply all_zero_ok; assumption.
Qed.

Lemma process_ok now ts ms i L L' r :
  now <= ts -> 0 <= ts -> ix_in_range i -> ledger_ok e now L ->
  process e ts ms i L = Ok (L', r) -> ledger_ok e ts L'.
Proof.
  intros Hts Hts0 Hi HL H. apply (ledger_ok_mono e now ts) in HL; [|assumption].
  destruct i; cbn [process ix_in_range] in *; unfold is_u64 in Hi;
    try (apply no_ret_ok in H as [H _]).
  - apply init_pool_inv in H as (pool & mint & vault & payer & auth & bump & w & L1 & L2 & _ & _ & _ & _ & _ & _ & Hd & _ & Hv & _ & _ & Hc & Ha & ->).
    apply ok_put_pool.
    + apply create_ok with (now := ts) in Hc; [|assumption|assumption|apply Henv].
      apply initialize_account_inv in Ha as (_ & _ & _ & ->).
      apply ok_put_token; [assumption|]. unfold is_u64, U64. cbn. lia.
    + apply init_pool_wf. apply (eo_vault _ Henv) in Hv as [_ Hb]. unfold is_u8. lia.
  - apply fill_inv in H as (pool & mint & vault & auth & src & w & w' & _ & Ho & _ & _ & _ & _ & _ & Hd & _ & _ & _ & Hf & Ht).
    eapply transfer_ok; [|exact (proj1 (proj1 Hi))|exact Ht]. apply ok_put_pool; [assumption|].
    eapply fill_wf; [exact (proj1 (proj1 Hi))|exact (proj1 (proj2 Hi))| |exact Hf]. eapply ok_pool; eassumption.
  - apply init_mining_inv in H as (pool & mining & payer & bump & L1 & _ & _ & _ & _ & Hf & Hc & ->).
    apply ok_put_mining.
    + eapply create_ok; [eassumption|assumption| |exact Hc]. apply Henv.
    + apply init_mining_wf. apply (eo_mining _ Henv) in Hf as [_ Hb]. unfold is_u8. lia.
  - apply deposit_inv in H as (pool & mining & auth & dm & w & m & w' & m' & d' & _ & Hc & _ & Ho & Hd & ->).
    pose proof (ok_ctx _ _ _ _ _ _ _ _ _ HL Hc) as [Hw Hm].
    eapply deposit_wf in Hd as (A & B & C); [|eassumption..|apply ok_dlg with (now := ts); assumption|lia].
    apply ok_put_dlg; [|assumption]. apply ok_put_mining; [|assumption]. apply ok_put_pool; assumption.
  - apply withdraw_inv in H as (pool & mining & auth & dm & w & m & w' & m' & d' & _ & Hc & _ & Ho & Hd & ->).
    pose proof (ok_ctx _ _ _ _ _ _ _ _ _ HL Hc) as [Hw Hm].
    eapply withdraw_wf in Hd as (A & B & C); [|eassumption..|apply ok_dlg with (now := ts); assumption|lia].
    apply ok_put_dlg; [|assumption]. apply ok_put_mining; [|assumption]. apply ok_put_pool; assumption.
  - inv. apply claim_inv in E as (pool & mint & vault & mining & owner & auth & dest & w & m & m1 & t & _ & Hp & _ & _ & Hmo & _ & _ & _ & _ & _ & Hpd & _ & Hmd & _ & _ & _ & _ & Hr & Hz & Hcase).
    cbv zeta in Hcase.
    pose proof (ok_pool _ _ _ _ HL Hp Hpd) as Hw. pose proof (ok_mining _ _ _ _ HL Hmo Hmd) as Hm.
    eapply refresh_wf in Hr; [|eassumption..].
    assert (ledger_ok e ts (put_mining L mining (WMining (mining_claim (wm m1)) (wm_diffs m1)))).
    { apply ok_put_mining; [assumption|]. apply claim_wf. assumption. }
    destruct Hcase as [[_ ->]|[Hpos Ht]]; [assumption|].
    eapply transfer_ok; [eassumption| |exact Ht]. lia.
  - apply extend_inv in H as (pool & mining & auth & dm & w & m & w' & m' & d' & _ & Hc & _ & Ho & Hd & ->).
    pose proof (ok_ctx _ _ _ _ _ _ _ _ _ HL Hc) as [Hw Hm].
    eapply extend_wf in Hd as (A & B & C); [|eassumption..|apply ok_dlg with (now := ts); assumption|lia|lia].
    apply ok_put_dlg; [|assumption]. apply ok_put_mining; [|assumption]. apply ok_put_pool; assumption.
  - apply distribute_inv in H as (pool & auth & w & r0 & w' & _ & Ho & _ & Hd & _ & Hr & Hdi & ->).
    pose proof (ok_pool _ _ _ _ HL Ho Hd) as Hw.
    apply ok_put_pool; [assumption|].
    eapply distribute_wf; [eassumption|reflexivity| |exact Hw|exact Hdi].
    unfold rewards_to_distribute in Hr. cbv zeta in Hr. pose proof (pw_avail _ _ Hw) as Ha. unfold is_u64 in Ha.
    destruct (_ =? 0); inv; [lia|].
    apply Z.div_pos; [|unfold PRECISION; lia]. apply Z.div_pos; [unfold PRECISION; lia|].
    assert (0 <= saturating_sub (p_ends_at (wp w)) ts / DAY); [|lia].
    apply Z.div_pos; [|unfold DAY; lia]. unfold saturating_sub. destruct (Z.leb_spec ts (p_ends_at (wp w))); lia.
  - apply close_inv in H as (mining & owner & target & auth & pool & w & m & m1 & _ & Hmo & Hto & _ & _ & _ & _ & _ & _ & _ & _ & _ & _ & _ & Hlt & ->).
    pose proof (ok_lamports _ _ target HL). pose proof (ok_lamports _ _ mining HL).
    apply ok_insert.
    + apply ok_put_lamports; [assumption|]. unfold is_u64 in *. lia.
    + split; [split; [unfold is_u64, U64; cbn; lia|exact I]|]. intros _. apply zero_mining_wf.
  - apply change_inv in H as (pool & mining & auth & owner & od & nd & w & m & w' & m' & od' & nd' & _ & Hc & _ & _ & Hoo & Hno & _ & _ & Hd & ->).
    pose proof (ok_ctx _ _ _ _ _ _ _ _ _ HL Hc) as [Hw Hm].
    eapply change_wf in Hd as (A & B & C & D); [|eassumption..|apply ok_dlg with (now := ts); assumption|apply ok_dlg with (now := ts); assumption|lia].
    apply ok_put_dlg; [|assumption]. apply ok_put_dlg; [|assumption]. apply ok_put_mining; [|assumption]. apply ok_put_pool; assumption.
  - apply slash_inv in H as (auth & pool & mining & w & m & w' & m' & _ & Hc & Hd & ->).
    pose proof (ok_ctx _ _ _ _ _ _ _ _ _ HL Hc) as [Hw Hm].
    eapply slash_wf in Hd as (A & B); [|eassumption..|lia|lia].
    apply ok_put_mining; [|assumption]. apply ok_put_pool; assumption.
  - apply decrease_inv in H as (auth & pool & mining & w & m & m' & _ & Hc & Hd & ->).
    pose proof (ok_ctx _ _ _ _ _ _ _ _ _ HL Hc) as [Hw Hm].
    eapply decrease_wf in Hd; [|lia|assumption].
    apply ok_put_mining; assumption.
Qed.

Lemma external_ok now L L' : 0 <= now -> external e L L' -> ledger_ok e now L -> ledger_ok e now L'.
Proof.
  intros Hn Hx HL k. destruct (Hx k) as (H1 & H2 & H3). split; [assumption|].
  intros Ho. destruct (Z.eq_dec (a_owner (acc L k)) (program_id e)) as [Ho'|Hno].
  - destruct (H2 Ho') as [(A & B & C)|[A B]].
    + rewrite B. apply (HL k). assumption.
    + rewrite B in Ho. cbn in Ho. destruct (eo_sys _ Henv). congruence.
  - apply all_zero_ok; [assumption|auto].
Qed.

Lemma step_ok now L ev L' : 0 <= now -> step e now L ev L' -> ledger_ok e now L -> ledger_ok e (time_of ev) L'.
Proof.
  intros Hn H HL. destruct H as [ts ms i L' r Hts [Hts0 _] Hi H|ts L' Hts [Hts0 _] H]; cbn [time_of].
  - apply exec_inv in H as [H _]. apply (process_ok now ts ms i L L' r); assumption.
  - eapply external_ok; [assumption|eassumption|]. apply (ledger_ok_mono e now ts); assumption.
Qed.

Lemma step_time now L ev L' : step e now L ev L' -> now <= time_of ev /\ is_u64 (time_of ev).
Proof. intros []; auto. Qed.

Lemma run_ok now L evs now' L' :
  0 <= now -> run e now L evs now' L' -> ledger_ok e now L -> ledger_ok e now' L' /\ now <= now'.
Proof.
  intros Hn H. induction H as [|now L ev L1 evs now' L' Hs Hr IH]; intros HL; [split; [assumption|lia]|].
  pose proof (step_time _ _ _ _ Hs) as [Ht [Ht0 _]].
  destruct IH as [A B]; [lia|apply (step_ok now L); assumption|]. split; [assumption|lia].
Qed.

End with_env.

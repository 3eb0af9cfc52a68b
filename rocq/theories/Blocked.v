(** Consequences of the conditions for creating accounts: what a new pool is, and how the
    creation of a mining or of a pool can be blocked for good. *)
From stdpp Require Import gmap.
From Verif Require Import Base OMap State Spec Ledger Program ResLemmas LedgerLemmas LedgerSpec CodecLemmas History HistoryLemmas Changes HistoryThms
  ReachThms SuccessSpec SuccessThms Scenario Attacks.

(** History in which nobody takes lamports out of account [k]: it signs nothing, no
    CloseMining names it, and other programs only add to it.  (An address derived by a
    program has no private key, so nobody can sign for it.) *)
Inductive untouched (e : env) (k : pubkey) : Z -> ledger -> Z -> ledger -> Prop :=
| un_nil now L : untouched e k now L now L
| un_ix now L ts ms i L1 r now' L' :
    now <= ts -> is_u64 ts -> ix_in_range i -> exec e ts ms i L = Ok (L1, r) ->
    ~ signed ms k -> ~ closes k (EvIx ts ms i) ->
    untouched e k ts L1 now' L' -> untouched e k now L now' L'
| un_ext now L ts L1 now' L' :
    now <= ts -> is_u64 ts -> external e L L1 -> lamports_of L k <= lamports_of L1 k ->
    untouched e k ts L1 now' L' -> untouched e k now L now' L'.

Section env.
Context (e : env) (Henv : env_ok e).

Lemma pool_created ts ms f d L L' r :
  exec e ts ms (InitializePool f d) L = Ok (L', r) ->
  exists pool mint vault payer auth bump,
    accounts_are ms [pool; mint; vault; payer; auth; rent_id e; spl_token_id e; system_id] /\
    signed ms payer /\ signed ms auth /\
    find_vault e pool mint = (vault, bump) /\ cpa_vault e pool mint bump = Some vault /\
    is_pool e L' pool (WPool (Pool auth d f mint 0 0 0 0 bump 1) [] []) /\
    owner_of L' vault = spl_token_id e /\ data_of L' vault = DToken (Token mint auth 0) /\
    lamports_of L' vault = rent_min e 165 /\
    lamports_of L' payer = lamports_of L payer - rent_min e 165 /\
    (forall k, k <> pool -> k <> vault -> k <> payer -> acc L' k = acc L k).
Proof.
  intros H. apply exec_inv in H as [H _]. cbn [process] in H. apply no_ret_ok in H as [H _].
  apply init_pool_inv in H as (pool & mint & vault & payer & auth & bump & w & L1 & L2 & Ha & Ho & Hmo & Hz & Hps & Has & Hw & Ht & Hf & N1 & N2 & Hc & Hin & ->).
  apply create_account_inv in Hc as (_ & _ & _ & Hl & Hv & Hd & Hpo & Hpd & Hne & Hlam & ->).
  apply initialize_account_inv in Hin as (_ & _ & Hmd & ->).
  assert (pool <> vault) by (intros ->; apply (eo_sys _ Henv); congruence).
  exists pool, mint, vault, payer, auth, bump. split; [assumption|]. split; [assumption|]. split; [assumption|]. split; [assumption|].
  split; [apply (proj1 (eo_vault _ Henv _ _ _ _ Hf))|].
  unfold is_pool, owner_of, data_of, lamports_of, put_pool, put_data, put_lamports, pool_initialize in *.
  repeat (rewrite acc_insert || rewrite acc_insert_ne by congruence). cbn.
  repeat (split; [auto|]). intros k K1 K2 K3.
  repeat (rewrite acc_insert || rewrite acc_insert_ne by congruence). reflexivity.
Qed.

Lemma lamports_kept now ts ms i L L' r k :
  ledger_ok e now L -> exec e ts ms i L = Ok (L', r) -> ~ signed ms k -> ~ closes k (EvIx ts ms i) ->
  lamports_of L k <= lamports_of L' k.
Proof.
  intros HL H Hs Hc. apply exec_inv in H as [H _].
  assert (Hdlg : forall L x d, lamports_of (put_dlg L x d) k = lamports_of L k).
  { intros L1 x [d|]; cbn; [apply lamports_put|reflexivity]. }
  assert (Htr : forall L src dst auth x L', spl_transfer ms L src dst auth x = Ok L' -> lamports_of L' k = lamports_of L k).
  { intros L1 src dst auth x L2 X. apply spl_transfer_inv in X as (s & d & _ & _ & _ & _ & _ & _ & _ & _ & [[_ ->]|(_ & _ & ->)]); [reflexivity|].
    unfold lamports_of. rewrite !lamports_put. reflexivity. }
  assert (Hcr : forall from to lam n o L', 0 <= lam -> create_account ms L from to lam n o = Ok L' -> lamports_of L k <= lamports_of L' k).
  { intros from to lam n o L2 Hlam X. apply create_account_inv in X as (_ & _ & Sf & Hl & _ & _ & _ & _ & _ & _ & ->).
    unfold lamports_of, put_lamports. destruct (Z.eq_dec to k) as [->|]; [rewrite acc_insert; cbn; lia|].
    rewrite acc_insert_ne by assumption. destruct (Z.eq_dec from k) as [->|]; [contradiction|]. rewrite acc_insert_ne by assumption. lia. }
  destruct i; cbn [process] in H; try (apply no_ret_ok in H as [H _]).
  - apply init_pool_inv in H as (pool & mint & vault & payer & auth & bump & w & L1 & L2 & _ & _ & _ & _ & _ & _ & _ & _ & _ & _ & _ & X & Hin & ->).
    apply initialize_account_inv in Hin as (_ & _ & _ & ->). apply Hcr in X; [|apply Henv].
    unfold lamports_of, put_pool in *. rewrite !lamports_put. assumption.
  - apply fill_inv in H as (pool & mint & vault & auth & source & w & w' & _ & _ & _ & _ & _ & _ & _ & _ & _ & _ & _ & _ & X).
    apply Htr in X. rewrite X. unfold lamports_of, put_pool. rewrite lamports_put. lia.
  - apply init_mining_inv in H as (pool & mining & payer & bump & L1 & _ & _ & _ & _ & _ & X & ->). apply Hcr in X; [|apply Henv].
    unfold lamports_of, put_mining in *. rewrite lamports_put. assumption.
  - apply deposit_inv in H as (pool & mining & auth & dm & w & m & w' & m' & d' & _ & _ & _ & _ & _ & ->).
    rewrite Hdlg. unfold lamports_of, put_mining, put_pool. rewrite !lamports_put. lia.
  - apply withdraw_inv in H as (pool & mining & auth & dm & w & m & w' & m' & d' & _ & _ & _ & _ & _ & ->).
    rewrite Hdlg. unfold lamports_of, put_mining, put_pool. rewrite !lamports_put. lia.
  - apply rbind_ok in H as ([L2 x] & H & E). injection E as <- <-.
    apply claim_inv in H as (pool & mint & vault & mining & owner & auth & dest & w & m & m1 & t & _ & _ & _ & _ & _ & _ & _ & _ & _ & _ & _ & _ & _ & _ & _ & _ & _ & _ & _ & X).
    cbv zeta in X. destruct X as [[_ ->]|[_ X]]; [|apply Htr in X; rewrite X]; unfold lamports_of, put_mining; rewrite lamports_put; lia.
  - apply extend_inv in H as (pool & mining & auth & dm & w & m & w' & m' & d' & _ & _ & _ & _ & _ & ->).
    rewrite Hdlg. unfold lamports_of, put_mining, put_pool. rewrite !lamports_put. lia.
  - apply distribute_inv in H as (pool & auth & w & r0 & w' & _ & _ & _ & _ & _ & _ & _ & ->).
    unfold lamports_of, put_pool. rewrite !lamports_put. lia.
  - apply close_inv in H as (mining & owner & target & auth & pool & w & m & m1 & Ha & _ & _ & _ & _ & _ & _ & _ & _ & _ & _ & _ & _ & _ & Hlam & ->).
    assert (mining <> k) by (intros <-; apply Hc; cbn; at_).
    unfold lamports_of, put_lamports. rewrite acc_insert_ne by assumption.
    destruct (Z.eq_dec target k) as [->|]; [rewrite acc_insert; cbn|rewrite acc_insert_ne by assumption; lia].
    destruct (HL mining) as [[Hu _] _]. unfold is_u64 in Hu. lia.
  - apply change_inv in H as (pool & mining & auth & owner & old_dm & new_dm & w & m & w' & m' & od & nd & _ & _ & _ & _ & _ & _ & _ & _ & _ & ->).
    rewrite !Hdlg. unfold lamports_of, put_mining, put_pool. rewrite !lamports_put. lia.
  - apply slash_inv in H as (auth & pool & mining & w & m & w' & m' & _ & _ & _ & ->).
    unfold lamports_of, put_mining, put_pool. rewrite !lamports_put. lia.
  - apply decrease_inv in H as (auth & pool & mining & w & m & m' & _ & _ & _ & ->).
    unfold lamports_of, put_mining, put_pool. rewrite !lamports_put. lia.
Qed.

Lemma untouched_keeps k now L now' L' :
  untouched e k now L now' L' -> 0 <= now -> ledger_ok e now L -> lamports_of L k <= lamports_of L' k.
Proof.
  induction 1 as [|now L ts ms i L1 r now' L' Hts Hu Hi X Hs Hc U IH|now L ts L1 now' L' Hts Hu X Hl U IH]; intros Hn HL; [lia| |].
  - pose proof (lamports_kept now ts ms i L L1 r k HL X Hs Hc).
    assert (ledger_ok e ts L1) by (eapply (step_ok e Henv now L (EvIx ts ms i)); [|econstructor; eassumption|exact HL]; lia).
    specialize (IH ltac:(lia) ltac:(assumption)). lia.
  - assert (ledger_ok e ts L1) by (eapply (step_ok e Henv now L (EvExt ts)); [|econstructor; eassumption|exact HL]; lia).
    specialize (IH ltac:(lia) ltac:(assumption)). lia.
Qed.

Lemma mining_blocked ts ms o p L k b :
  0 < lamports_of L k -> find_mining e o p = (k, b) -> account_at ms 0 p ->
  exists err, exec e ts ms (InitializeMining o) L = Err err.
Proof.
  intros Hl Hf Ha. destruct (exec e ts ms (InitializeMining o) L) as [[L' r]|err] eqn:E; [exfalso|eauto].
  apply (mining_created e Henv) in E as (pool & k' & bump & A1 & A2 & _ & Hf' & _ & Hz & _).
  assert (p = pool) by (eapply at_fun; eassumption). subst. rewrite Hf in Hf'. injection Hf' as <- <-. lia.
Qed.
Lemma pool_blocked ts ms f d p mint L k b :
  0 < lamports_of L k -> find_vault e p mint = (k, b) -> account_at ms 0 p -> account_at ms 1 mint ->
  exists err, exec e ts ms (InitializePool f d) L = Err err.
Proof.
  intros Hl Hf Ha Hb. destruct (exec e ts ms (InitializePool f d) L) as [[L' r]|err] eqn:E; [exfalso|eauto].
  apply exec_inv in E as [E _]. cbn [process] in E. apply no_ret_ok in E as [E _].
  apply init_pool_inv in E as (pool & mint' & vault & payer & auth & bump & w & L1 & L2 & A & _ & _ & _ & _ & _ & _ & _ & Hf' & _ & _ & Hc & _).
  apply create_account_inv in Hc as (_ & _ & _ & Hz & _).
  assert (p = pool) by (eapply at_fun; [exact Ha|at_]). assert (mint = mint') by (eapply at_fun; [exact Hb|at_]). subst.
  rewrite Hf in Hf'. injection Hf' as <- <-. unfold lamports_of in Hl. lia.
Qed.

Lemma mining_blocked_forever now L now' L' o p k b ts ms :
  reached e now L -> 0 < lamports_of L k -> find_mining e o p = (k, b) -> untouched e k now L now' L' ->
  account_at ms 0 p -> exists err, exec e ts ms (InitializeMining o) L' = Err err.
Proof.
  intros HR Hl Hf U Ha. destruct (reached_ok e Henv _ _ HR) as (HL & _ & Hn).
  pose proof (untouched_keeps _ _ _ _ _ U Hn HL). eapply mining_blocked; [|exact Hf|exact Ha]. lia.
Qed.
Lemma pool_blocked_forever now L now' L' p mint k b ts ms f d :
  reached e now L -> 0 < lamports_of L k -> find_vault e p mint = (k, b) -> untouched e k now L now' L' ->
  account_at ms 0 p -> account_at ms 1 mint -> exists err, exec e ts ms (InitializePool f d) L' = Err err.
Proof.
  intros HR Hl Hf U Ha Hb. destruct (reached_ok e Henv _ _ HR) as (HL & _ & Hn).
  pose proof (untouched_keeps _ _ _ _ _ U Hn HL). eapply pool_blocked; [|exact Hf|exact Ha|exact Hb]. lia.
Qed.

(** somebody else adds a lamport to an empty address *)
Lemma add_lamport now L k :
  reached e now L -> lamports_of L k = 0 -> owner_of L k = system_id ->
  exists L1, external e L L1 /\ lamports_of L1 k = 1 /\ forall k', k' <> k -> acc L1 k' = acc L k'.
Proof.
  intros HR Hl Ho. destruct (reached_ok e Henv _ _ HR) as (HL & _ & Hn). exists (put_lamports L k 1).
  assert (Ek : acc (put_lamports L k 1) k = Account 1 (owner_of L k) (data_of L k)) by (unfold put_lamports; rewrite acc_insert; reflexivity).
  assert (En : forall k', k' <> k -> acc (put_lamports L k 1) k' = acc L k') by (intros; unfold put_lamports; apply acc_insert_ne; congruence).
  split; [|split; [unfold lamports_of; rewrite Ek; reflexivity|exact En]].
  intros x. destruct (Z.eq_dec x k) as [->|Hne].
  - rewrite Ek. destruct (HL k) as [[_ Hb] _]. unfold owner_of, data_of in *. split; [split; [split; [cbn; lia|reflexivity]|exact Hb]|].
    split; [intros E; rewrite Ho in E; symmetry in E; contradiction (eo_sys _ Henv E)|].
    intros _ E. cbn in E. rewrite Ho in E. symmetry in E. contradiction (eo_sys _ Henv E).
  - rewrite En by assumption. destruct (HL x) as [Hb Hz]. split; [exact Hb|]. split; [left; repeat split; lia|]. congruence.
Qed.

(** ** A closed mining that gets lamports before it is swept *)
Lemma closed_mining ts ms L L1 r k :
  exec e ts ms CloseMining L = Ok (L1, r) -> account_at ms 0 k -> is_mining e L1 k zero_wmining.
Proof.
  intros H Ha. apply exec_inv in H as [H _]. cbn [process] in H. apply no_ret_ok in H as [H _].
  apply close_inv in H as (mining & owner & target & auth & pool & w & m & m1 & A & Ho & _ & _ & _ & _ & _ & _ & _ & _ & _ & _ & _ & _ & Hlam & ->).
  assert (k = mining) by (eapply at_fun; [exact Ha|at_]). subst k.
  unfold is_mining, owner_of, data_of. rewrite acc_insert. cbn. auto.
Qed.

Lemma ownerless_stays now L evs now' L' k m :
  run e now L evs now' L' -> 0 <= now -> ledger_ok e now L ->
  (forall ts ms i, In (EvIx ts ms i) evs -> ~ signed ms system_id) ->
  is_mining e L k m -> m_owner (wm m) = system_id -> 0 < lamports_of L k ->
  exists m', is_mining e L' k m' /\ m_owner (wm m') = system_id /\ lamports_of L k <= lamports_of L' k.
Proof.
  intros R Hn HL Hs Hm Ho Hl.
  revert m Hm Ho Hn HL Hs Hl. induction R as [|now L ev L1 evs now' L' S R IH]; intros m Hm Ho Hn HL Hs Hl.
  - exists m. split; [assumption|]. split; [assumption|lia].
  - assert (HL1 : ledger_ok e (time_of ev) L1) by (eapply step_ok; eassumption).
    assert (Hn1 : 0 <= time_of ev) by (pose proof (step_time e _ _ _ _ S); lia).
    assert (Hc : ~ closes k ev).
    { destruct ev as [ts ms i|ts]; [|exact (fun x => x)]. intros C. destruct i; cbn in C; try contradiction.
      inversion S; subst. apply (Hs ts ms CloseMining (or_introl eq_refl)).
      match goal with X : exec _ _ _ _ _ = Ok _ |- _ => rename X into X0 end.
      apply exec_inv in X0 as [X0 _]. cbn [process] in X0. apply no_ret_ok in X0 as [X0 _].
      apply close_inv in X0 as (mining & owner & target & auth & pool & w & m0 & m1 & A & Ho' & _ & _ & So & _ & _ & _ & _ & Hm0 & Hmo & _).
      assert (k = mining) by (eapply at_fun; [exact C|at_]). subst k. destruct Hm as [_ Hm]. congruence. }
    destruct (mining_persists e Henv now L [ev] (time_of ev) L1 k m) as (m1 & Hm1 & ((_ & G & _) & _) & Hl1); try assumption.
    { econstructor; [exact S|constructor]. }
    { intros ev' [<-|[]]. exact Hc. }
    destruct (IH m1) as (m' & Hm' & Ho' & Hl'); try assumption; [congruence| |lia|].
    { intros ts ms i Hin. apply (Hs ts ms i). right. assumption. }
    exists m'. split; [assumption|]. split; [assumption|lia].
Qed.

Lemma closed_dead now ts ms L L1 r ts2 L2 evs now' L' k ts' ms' o :
  reached e now L -> now <= ts -> is_u64 ts -> exec e ts ms CloseMining L = Ok (L1, r) -> account_at ms 0 k ->
  ts <= ts2 -> is_u64 ts2 -> external e L1 L2 -> 0 < lamports_of L2 k ->
  run e ts2 L2 evs now' L' -> (forall ts ms i, In (EvIx ts ms i) evs -> ~ signed ms system_id) ->
  account_at ms' 1 k ->
  lamports_of L2 k <= lamports_of L' k /\ exists err, exec e ts' ms' (InitializeMining o) L' = Err err.
Proof.
  intros HR Hts Hu X Ha Hts2 Hu2 Xe Hl R Hs Hb. destruct (reached_ok e Henv _ _ HR) as (HL & _ & Hn).
  pose proof (closed_mining _ _ _ _ _ _ X Ha) as Hz.
  assert (HL1 : ledger_ok e ts L1) by (eapply (step_ok e Henv now L (EvIx ts ms CloseMining)); [|econstructor; try eassumption; exact I|exact HL]; lia).
  assert (HL2 : ledger_ok e ts2 L2) by (eapply (step_ok e Henv ts L1 (EvExt ts2)); [|econstructor; eassumption|exact HL1]; lia).
  assert (Hz2 : is_mining e L2 k zero_wmining).
  { destruct Hz as [Z1 Z2]. destruct (Xe k) as (_ & Hx & _). destruct (Hx Z1) as [(E1 & E2 & _)|[_ E]].
    - unfold is_mining, owner_of, data_of in *. split; congruence.
    - unfold lamports_of in Hl. rewrite E in Hl. cbn in Hl. lia. }
  destruct (ownerless_stays ts2 L2 evs now' L' k zero_wmining) as (m' & Hm' & _ & Hl'); try assumption; [lia|reflexivity|].
  split; [assumption|]. destruct (exec e ts' ms' (InitializeMining o) L') as [[L3 r3]|err] eqn:E; [exfalso|eauto].
  apply (mining_created e Henv) in E as (pool & k' & bump & A1 & A2 & _ & _ & _ & Hz0 & _).
  assert (k = k') by (eapply at_fun; eassumption). subst. lia.
Qed.
End env.

Lemma runs_ok L c : runs L c = true <-> exists x, exec env0 (fst c) (fst (snd c)) (snd (snd c)) L = Ok x.
Proof.
  unfold runs, success. destruct (exec _ _ _ _ _); [split; eauto|]. split; [discriminate|intros [x H]; discriminate].
Qed.

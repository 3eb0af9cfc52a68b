(** Proofs for claims C64 and C65, continued: instructions and histories. *)
From stdpp Require Import gmap.
From Verif Require Import Base OMap State Ledger Program ResLemmas LedgerLemmas CodecLemmas WfLemmas History HistoryLemmas HistoryThms MoveSpec Move.

Section process.
Context (f : pubkey -> pubkey) (d : Z) (Hf : renaming f) (Hd : whole_days d) (e e' : env) (He : env_moved f e e').
Local Notation mw_ := (move_wpool f d).
Local Notation mm_ := (move_wmining f d).
Local Notation ml_ := (move_ledger f d).
Local Notation ma_ := (move_account f d).
Local Notation md_ := (move_data f d).
Local Notation mt_ := (map (move_meta f)).
Local Notation dm_ := (dm_ f d).

Lemma get_mining_move L o m p a :
  assert_and_get e' (ml_ L) (f o) (f m) (f p) (f a) = rmap (fun r => (mw_ (fst r), mm_ (snd r))) (assert_and_get e L o m p a).
Proof.
  unfold assert_and_get. rewrite !acc_move by assumption. cbn [move_account a_data].
  eapply bind_move; [apply load_mining_move|]. intros x _. eapply bind_move; [apply load_pool_move|]. intros w _.
  cbn [move_wmining wm move_mining m_bump m_pool m_owner move_wpool wp move_pool p_deposit_auth]. rewrite (em_cpa_mining _ _ _ He).
  eapply bind_move; [apply pda_move|]. intros k _. rewrite !assert_move, key_eq by assumption.
  do 4 (apply bind_same; intros _ _). reflexivity.
Qed.
Lemma verify_move L g m o p : verify_opt e' (ml_ L) (f g) (f m) (f o) (f p) = verify_opt e L g m o p.
Proof.
  unfold verify_opt, verify_delegate. rewrite key_eq, distinct_move, acc_move by assumption. cbn [move_account a_data]. destruct (m =? g); [reflexivity|].
  destruct (distinct g p EPanic); [|reflexivity]. cbn [rbind]. rewrite load_mining_move. destruct (load_mining _) as [x|]; [|reflexivity]. cbn [rmap rbind].
  cbn [move_wmining wm move_mining m_bump]. rewrite (em_cpa_mining _ _ _ He). destruct (cpa_mining e o p _) as [k|]; cbn [option_map]; [|reflexivity].
  rewrite key_eq by assumption. reflexivity.
Qed.
Lemma dlg_move L g m : dlg_of (ml_ L) (f g) (f m) = dm_ (dlg_of L g m).
Proof.
  unfold dlg_of. rewrite key_eq, acc_move by assumption. destruct (m =? g); [reflexivity|]. cbn [move_account a_data]. rewrite load_mining_move. reflexivity.
Qed.
Lemma old_move L g m p : old_dlg (ml_ L) (f g) (f m) (f p) = dm_ (old_dlg L g m p).
Proof. unfold old_dlg. rewrite key_eq, dlg_move by assumption. destruct (g =? p); reflexivity. Qed.

Ltac ldr :=
  rewrite ?(em_program _ _ _ He), ?(em_token _ _ _ He), ?(em_rent _ _ _ He);
  repeat (eapply bind_move;
    [first [apply (owner_move f d Hf) | apply (sysowner_move f d Hf) | apply (uninit_move f d Hf Hd) | apply (nsigner_move f Hf)
           | apply (withkey_move f Hf) | apply (syskey_move f Hf)]|];
    let k := fresh "k" in let it := fresh "it" in let H := fresh "Hk" in intros [k it] H; cbn [ld_ fst snd]).

Lemma init_pool_move ms L a b :
  process_initialize_pool e' (mt_ ms) (ml_ L) (f a) (f b) = rmap ml_ (process_initialize_pool e ms L a b).
Proof.
  unfold process_initialize_pool. ldr. rewrite acc_move by assumption. cbn [move_account a_data]. rewrite len_data_move.
  apply bind_same. intros _ _. eapply bind_move; [apply load_pool_move|]. intros w _.
  apply bind_same. intros _ _. rewrite (em_find_vault _ _ _ He). destruct (find_vault e _ _) as [vk bump]. cbn [fst snd].
  rewrite !assert_move, !distinct_move by assumption. do 2 (apply bind_same; intros _ _). rewrite (em_rent_min _ _ _ He).
  eapply bind_move; [apply create_move; assumption|]. intros L1 _. apply bind_same; intros _ _.
  eapply bind_move; [apply initacc_move; assumption|]. intros L2 _. cbn [rmap]. f_equal.
  rewrite <- put_pool_move by assumption. reflexivity.
Qed.
Lemma fill_vault_move ts ms L r x :
  (d = 0 \/ forall k w, a_owner (acc L k) = program_id e -> a_data (acc L k) = DPool w -> 0 <= p_ends_at (wp w)) ->
  (d = 0 \/ 86400 <= ts /\ x + d < 18446744073709551616) ->
  process_fill_vault e' (ts + d) (mt_ ms) (ml_ L) r (x + d) = rmap ml_ (process_fill_vault e ts ms L r x).
Proof.
  intros HL Hx. unfold process_fill_vault. ldr. apply bind_same. intros _ _. rewrite acc_move by assumption. cbn [move_account a_data].
  eapply bind_move; [apply load_pool_move|]. intros w Hw. cbn [move_wpool wp move_pool p_fill_auth p_bump]. rewrite assert_move by assumption.
  apply bind_same. intros _ _. rewrite (em_cpa_vault _ _ _ He). eapply bind_move; [apply pda_move|]. intros vk _.
  rewrite assert_move by assumption. apply bind_same. intros _ _.
  eapply bind_move; [apply (fill_move f d Hd); [|exact Hx]|].
  { destruct HL as [HL|HL]; [left; exact HL|right]. apply (HL k).
    - apply next_with_owner_ok in Hk as (? & ? & ? & ?). assumption.
    - destruct (a_data (acc L k)); cbn in Hw; try discriminate; try (destruct (_ <? _) in Hw; discriminate Hw). injection Hw as ->. reflexivity. }
  intros w' _. rewrite distinct_move by assumption. apply bind_same. intros _ _. rewrite put_pool_move by assumption. apply transfer_move; assumption.
Qed.
Lemma init_mining_move ms L o : process_initialize_mining e' (mt_ ms) (ml_ L) (f o) = rmap ml_ (process_initialize_mining e ms L o).
Proof.
  unfold process_initialize_mining. ldr. rewrite (em_find_mining _ _ _ He). destruct (find_mining e _ _) as [key bump]. cbn [fst snd].
  rewrite !assert_move by assumption. apply bind_same. intros _ _. rewrite (em_rent_min _ _ _ He).
  eapply bind_move; [apply create_move; assumption|]. intros L1 _. rewrite acc_move by assumption. cbn [move_account a_data].
  eapply bind_move; [apply load_mining_move|]. intros m _. cbn [rmap]. f_equal.
  rewrite <- put_mining_move by assumption. f_equal. unfold mining_initialize, move_wmining, move_mining. cbn. rewrite (rn_system f Hf). reflexivity.
Qed.
Ltac got := rewrite ?distinct_move by assumption; apply bind_same; intros _ _; eapply bind_move; [apply get_mining_move|];
  let w := fresh "w" in let m := fresh "m" in intros [w m] _; cbn [fst snd].
Lemma deposit_ix_move ts ms L a p o g : d = 0 \/ movable d ts ->
  process_deposit e' (ts + d) (mt_ ms) (ml_ L) a p (f o) (f g) = rmap ml_ (process_deposit e ts ms L a p o g).
Proof.
  intros Ht. unfold process_deposit. ldr. got. rewrite verify_move. apply bind_same. intros _ _. rewrite dlg_move.
  eapply bind_move; [apply deposit_move; assumption|]. intros [[w' m'] x] _. cbn [rmap]. f_equal.
  rewrite put_pool_move, put_mining_move, put_dlg_move by assumption. reflexivity.
Qed.
Lemma withdraw_ix_move ts ms L a o g :
  process_withdraw e' (ts + d) (mt_ ms) (ml_ L) a (f o) (f g) = rmap ml_ (process_withdraw e ts ms L a o g).
Proof.
  unfold process_withdraw. ldr. got. rewrite verify_move. apply bind_same. intros _ _. rewrite dlg_move.
  eapply bind_move; [apply withdraw_move; assumption|]. intros [[w' m'] x] _. cbn [rmap]. f_equal.
  rewrite put_pool_move, put_mining_move, put_dlg_move by assumption. reflexivity.
Qed.
Lemma extend_ix_move ts ms L p q s b a o g : 0 <= ts -> d = 0 \/ movable d ts -> d = 0 \/ movable d s ->
  process_extend e' (ts + d) (mt_ ms) (ml_ L) p q (s + d) b a (f o) (f g) = rmap ml_ (process_extend e ts ms L p q s b a o g).
Proof.
  intros H0 Ht Hs. unfold process_extend. ldr. got. rewrite verify_move. apply bind_same. intros _ _. rewrite dlg_move.
  eapply bind_move; [apply extend_move; assumption|]. intros [[w' m'] x] _. cbn [rmap]. f_equal.
  rewrite put_pool_move, put_mining_move, put_dlg_move by assumption. reflexivity.
Qed.
Lemma claim_move ts ms L :
  process_claim e' (ts + d) (mt_ ms) (ml_ L) = rmap (fun r => (ml_ (fst r), snd r)) (process_claim e ts ms L).
Proof.
  unfold process_claim. ldr. rewrite !acc_move by assumption. cbn [move_account a_data].
  eapply bind_move; [apply load_token_move|]. intros t _. cbn [move_token t_owner]. rewrite assert_move by assumption. apply bind_same. intros _ _.
  eapply bind_move; [apply load_pool_move|]. intros w _. cbn [move_wpool wp wp_ci move_pool p_deposit_auth p_bump]. rewrite assert_move, distinct_move by assumption.
  do 2 (apply bind_same; intros _ _). eapply bind_move; [apply load_mining_move|]. intros m _. cbn [move_wmining wm move_mining m_owner m_pool].
  rewrite !assert_move by assumption. do 2 (apply bind_same; intros _ _). rewrite (em_cpa_vault _ _ _ He). eapply bind_move; [apply pda_move|]. intros vk _.
  rewrite assert_move by assumption. apply bind_same; intros _ _.
  change (WMining (Mining (f (m_pool (wm m))) (f (m_owner (wm m))) (f (m_mint (wm m))) (m_index (wm m)) (m_share (wm m)) (m_unclaimed (wm m)) (m_sfo (wm m)) (m_bump (wm m)) (m_type (wm m))) (move_sched d (wm_diffs m))) with (mm_ m).
  eapply bind_move; [apply refresh_move; assumption|]. intros m1 _. cbn [move_wmining wm wm_diffs move_mining m_unclaimed].
  match goal with |- context[put_mining (ml_ L) (f ?k) ?x] => change x with (mm_ (WMining (mining_claim (wm m1)) (wm_diffs m1))) end.
  rewrite put_mining_move by assumption. apply (bind_move _ _ ml_); [|reflexivity].
  destruct (0 <? _); [apply transfer_move; assumption|reflexivity].
Qed.
Lemma distribute_ix_move ts ms L : 0 <= ts ->
  process_distribute e' (ts + d) (mt_ ms) (ml_ L) = rmap ml_ (process_distribute e ts ms L).
Proof.
  intros H0. unfold process_distribute. ldr. rewrite acc_move by assumption. cbn [move_account a_data].
  eapply bind_move; [apply load_pool_move|]. intros w _. change (wp (mw_ w)) with (move_pool f d (wp w)). rewrite rewards_move by assumption.
  apply bind_same. intros r _. cbn [move_pool p_distribute_auth]. rewrite assert_move by assumption. apply bind_same. intros _ _.
  eapply bind_move; [apply distribute_move; assumption|]. intros w' _. cbn [rmap]. f_equal. apply put_pool_move; assumption.
Qed.
Lemma close_move ts ms L : process_close e' (ts + d) (mt_ ms) (ml_ L) = rmap ml_ (process_close e ts ms L).
Proof.
  unfold process_close. ldr. rewrite !acc_move by assumption. cbn [move_account a_data a_owner a_lamports].
  eapply bind_move; [apply load_pool_move|]. intros w _. cbn [move_wpool wp wp_ci move_pool p_deposit_auth]. rewrite assert_move, distinct_move by assumption.
  do 2 (apply bind_same; intros _ _). eapply bind_move; [apply load_mining_move|]. intros m _. change (m_owner (wm (mm_ m))) with (f (m_owner (wm m))).
  rewrite !assert_move by assumption. apply bind_same; intros _ _.
  eapply bind_move; [apply refresh_move; assumption|]. intros m1 _. cbn [move_wmining wm wm_diffs move_mining m_unclaimed m_sfo].
  do 2 (apply bind_same; intros _ _). apply bind_same. intros lam _. cbn [rmap]. f_equal. rewrite put_lam_move, <- ins_move by assumption.
  unfold move_account. cbn [a_lamports a_owner a_data]. rewrite zeros_move by assumption. reflexivity.
Qed.
Lemma change_ix_move ts ms L a n :
  process_change_delegate e' (ts + d) (mt_ ms) (ml_ L) a (f n) = rmap ml_ (process_change_delegate e ts ms L a n).
Proof.
  unfold process_change_delegate. ldr. rewrite key_eq by assumption. apply bind_same. intros _ _. got. rewrite verify_move. apply bind_same. intros _ _.
  rewrite dlg_move, old_move. eapply bind_move; [apply change_move; assumption|]. intros [[[w' m'] x] y] _. cbn [rmap]. f_equal.
  rewrite put_pool_move, put_mining_move, !put_dlg_move by assumption. reflexivity.
Qed.
Lemma slash_ix_move ts ms L o n w x :
  process_slash e' (ts + d) (mt_ ms) (ml_ L) (f o) n w (option_map (fun y => y + d) x) = rmap ml_ (process_slash e ts ms L o n w x).
Proof.
  unfold process_slash. ldr. got. eapply bind_move; [apply slash_move; assumption|]. intros [w' m'] _. cbn [rmap fst snd]. f_equal.
  rewrite put_pool_move, put_mining_move by assumption. reflexivity.
Qed.
Lemma decrease_ix_move ms L o n : process_decrease e' (mt_ ms) (ml_ L) (f o) n = rmap ml_ (process_decrease e ms L o n).
Proof.
  unfold process_decrease. ldr. got. eapply bind_move; [apply decrease_move; assumption|]. intros m' _. cbn [rmap]. f_equal.
  rewrite put_mining_move by assumption. reflexivity.
Qed.
Lemma no_ret_move r : no_ret (rmap ml_ r) = move_answer f d (no_ret r).
Proof. destruct r; reflexivity. Qed.
Lemma process_move ts ms i L : 0 <= ts ->
  (d = 0 \/ forall k w, a_owner (acc L k) = program_id e -> a_data (acc L k) = DPool w -> 0 <= p_ends_at (wp w)) ->
  ix_movable d ts i ->
  process e' (ts + d) (mt_ ms) (move_ix f d i) (ml_ L) = move_answer f d (process e ts ms i L).
Proof.
  intros H0 HL Hi. unfold ix_movable in Hi.
  destruct i; cbn [process move_ix];
    try rewrite <- no_ret_move; try (f_equal; [idtac]).
  - apply init_pool_move.
  - apply fill_vault_move; [exact HL|tauto].
  - apply init_mining_move.
  - apply deposit_ix_move. tauto.
  - apply withdraw_ix_move.
  - rewrite claim_move. destruct (process_claim e ts ms L) as [[? ?]|]; reflexivity.
  - apply extend_ix_move; [exact H0|tauto|tauto].
  - apply distribute_ix_move. exact H0.
  - apply close_move.
  - apply change_ix_move.
  - apply slash_ix_move.
  - apply decrease_ix_move.
Qed.
Lemma exec_move ts ms i L : 0 <= ts ->
  (d = 0 \/ forall k w, a_owner (acc L k) = program_id e -> a_data (acc L k) = DPool w -> 0 <= p_ends_at (wp w)) ->
  ix_movable d ts i ->
  exec e' (ts + d) (mt_ ms) (move_ix f d i) (ml_ L) = move_answer f d (exec e ts ms i L).
Proof.
  intros H0 HL Hi. unfold exec. rewrite process_move by assumption. destruct (process e ts ms i L) as [[L' r]|er]; [|reflexivity].
  cbn [move_answer rbind]. rewrite readonly_move by assumption. destruct (readonly_ok ms L L'); reflexivity.
Qed.

(** ** Histories *)
Lemma range_move ts i : ix_movable d ts i -> ix_in_range i -> ix_in_range (move_ix f d i).
Proof.
  pose proof (rn_key f Hf) as K. destruct Hd as [Hd0 _]. intros Hm Hi. unfold ix_movable in Hm.
  destruct i; cbn [move_ix ix_in_range] in *; unfold is_u64, U64, movable in *;
    repeat match goal with H : _ /\ _ |- _ => destruct H | |- _ /\ _ => split end; auto; try lia.
  match goal with x : option Z |- _ => destruct x end; cbn; [|exact I]. lia.
Qed.
Lemma bytes_move a : account_bytes_ok a -> account_bytes_ok (ma_ a).
Proof. intros [H1 H2]. split; [exact H1|]. destruct a as [l o [| | | |t| |]]; cbn in *; auto. Qed.
Lemma owner_is a : a_owner (ma_ a) = program_id e' <-> a_owner a = program_id e.
Proof. rewrite (em_program _ _ _ He). cbn. split; [apply (rn_inj f Hf)|congruence]. Qed.
Lemma image_or L k : (exists q, k = f q) \/ acc (ml_ L) k = empty_account.
Proof.
  unfold acc, move_ledger, ledger, pubkey in *.
  destruct (kmap f (ma_ <$> L) !! k) as [a|] eqn:E; [left|right; reflexivity].
  pose proof (f_inj f Hf). apply (lookup_kmap_Some (M1 := gmap Z) (M2 := gmap Z) f) in E as (q & -> & _). exists q. reflexivity.
Qed.
Lemma external_move L L' : external e L L' -> external e' (ml_ L) (ml_ L').
Proof.
  intros H k.
  assert ((exists q, k = f q) \/ acc (ml_ L) k = empty_account /\ acc (ml_ L') k = empty_account) as [(q & ->)|[-> ->]].
  { destruct (image_or L k) as [X|X]; [left; exact X|]. destruct (image_or L' k) as [Y|Y]; [left; exact Y|]. right. split; assumption. }
  - rewrite !acc_move by assumption. destruct (H q) as (H1 & H2 & H3). split; [apply bytes_move; exact H1|split].
    + intros Ho. apply owner_is in Ho. destruct (H2 Ho) as [(A & B & C)|[A B]]; [left|right].
      * unfold move_account. cbn [a_owner a_data a_lamports]. rewrite A, B. auto.
      * split; [exact A|]. rewrite B. apply empty_move; assumption.
    + intros Ho Ho'. rewrite owner_is in Ho, Ho'. unfold move_account. cbn [a_data]. rewrite zero_move by assumption. auto.
  - split; [split; cbn; unfold is_u64, U64; [lia|exact I]|]. split; [|tauto]. intros _. left. cbn. auto with lia.
Qed.
Lemma genesis_move L : genesis e L -> genesis e' (ml_ L).
Proof.
  intros H k. destruct (image_or L k) as [(q & ->)| ->].
  - rewrite acc_move by assumption. destruct (H q) as [A B]. split; [apply bytes_move; exact A|]. intros Ho. apply owner_is in Ho.
    unfold move_account. cbn [a_data]. rewrite zero_move by assumption. auto.
  - split; [split; cbn; unfold is_u64, U64; [lia|exact I]|]. reflexivity.
Qed.
Lemma ends_pos now L : ledger_ok e now L ->
  forall k w, a_owner (acc L k) = program_id e -> a_data (acc L k) = DPool w -> 0 <= p_ends_at (wp w).
Proof.
  intros H k w Ho Hw. destruct (H k) as [_ G]. specialize (G Ho). rewrite Hw in G. destruct (pw_ends _ _ G). assumption.
Qed.
Lemma step_move now L ev L' : (d = 0 \/ ledger_ok e now L) -> (d = 0 \/ event_movable d ev) ->
  step e now L ev L' -> step e' (now + d) (ml_ L) (move_event f d ev) (ml_ L').
Proof.
  intros HL Hm H. destruct Hd as [Hd0 Hd1]. assert (D : whole_days d) by (split; assumption).
  destruct H as [ts ms i L' r Hn Ht Hi Hx|ts L' Hn Ht Hx]; cbn [move_event event_movable] in *.
  - assert (M : ix_movable d ts i) by (destruct Hm; [left; assumption|assumption]).
    apply (step_ix e' (now + d) (ml_ L) (ts + d) (mt_ ms) (move_ix f d i) (ml_ L') r).
    + lia.
    + unfold is_u64, U64 in *. destruct M as [->|(_ & M & _)]; [lia|]. unfold movable in M. lia.
    + eapply range_move; eassumption.
    + unfold is_u64 in Ht. rewrite exec_move; [rewrite Hx; reflexivity|lia| |exact M].
      destruct HL as [HL|HL]; [left; exact HL|right; eapply ends_pos; exact HL].
  - apply step_ext; [lia|unfold is_u64, U64 in *; lia|]. apply external_move. exact Hx.
Qed.
Lemma run_move now L evs now' L' : 0 <= now -> (d = 0 \/ env_ok e /\ ledger_ok e now L) -> (d = 0 \/ Forall (event_movable d) evs) ->
  run e now L evs now' L' -> run e' (now + d) (ml_ L) (map (move_event f d) evs) (now' + d) (ml_ L').
Proof.
  intros H0 HL Hm H. revert H0 HL Hm. induction H as [now L|now L ev L1 evs now' L' Hs Hr IH]; intros H0 HL Hm; [constructor|].
  cbn [map].
  assert (Hnow : now <= time_of ev) by (destruct Hs; assumption).
  assert (Htm : time_of (move_event f d ev) = time_of ev + d) by (destruct ev; reflexivity).
  econstructor.
  - apply step_move; [| |exact Hs]; [destruct HL as [HL|[_ HL]]; auto|]. destruct Hm as [Hm|Hm]; [auto|]. inversion Hm. auto.
  - rewrite Htm. apply IH; [lia| |destruct Hm as [Hm|Hm]; [auto|inversion Hm; auto]].
    destruct HL as [HL|[Ho HL]]; [auto|right]. split; [exact Ho|]. eapply step_ok; eassumption.
Qed.
End process.

Lemma run_from e now n L evs now' L' : n <= now -> run e now L evs now' L' -> evs <> [] -> run e n L evs now' L'.
Proof.
  intros Hn H. destruct H as [|now L ev L1 evs now' L' Hs Hr]; [congruence|]. intros _. econstructor; [|exact Hr].
  destruct Hs; econstructor; try eassumption; lia.
Qed.
Lemma renamed_env_moved f g e : (forall k, g (f k) = k) -> env_moved f e (renamed_env f g e).
Proof.
  intros H. split; intros; cbn; rewrite ?H; try reflexivity.
  - destruct (find_mining e o p); reflexivity.
  - destruct (find_vault e p m); reflexivity.
Qed.
(** what is assumed of an environment holds after renaming *)
Lemma renamed_env_ok f g e : renaming f -> (forall k, g (f k) = k) -> (forall k, f (g k) = k) -> env_ok e -> env_ok (renamed_env f g e).
Proof.
  intros R H H' [A B C D E F]. split; cbn.
  - intros X. apply A. apply (rn_inj f R). rewrite X. symmetry. apply (rn_system f R).
  - intros X. apply B. apply (rn_inj f R). exact X.
  - intros X. apply C. apply (rn_inj f R). rewrite X. symmetry. apply (rn_system f R).
  - intros o p k b X. destruct (find_mining e (g o) (g p)) as [k0 b0] eqn:G. injection X as <- <-. apply D in G as [G ?]. rewrite G. auto.
  - intros o p k b X. destruct (find_vault e (g o) (g p)) as [k0 b0] eqn:G. injection X as <- <-. apply E in G as [G ?]. rewrite G. auto.
  - exact F.
Qed.
Lemma renamed_env_inj f g e : renaming f -> (forall k, f (g k) = k) -> env_inj e -> env_inj (renamed_env f g e).
Proof.
  intros R H' [A B C].
  assert (S : forall (x : option pubkey) k, option_map f x = Some (f k) -> x = Some k)
    by (intros [x|] k X; [injection X as X; apply (rn_inj f R) in X; congruence|discriminate]).
  assert (G : forall a b, g a = g b -> a = b) by (intros a b X; rewrite <- (H' a), <- (H' b), X; reflexivity).
  split; cbn; intros o p b o' p' b' k X Y; rewrite <- (H' k) in X, Y; apply S in X, Y.
  - destruct (A _ _ _ _ _ _ _ X Y) as (E1 & E2 & ->). auto.
  - destruct (B _ _ _ _ _ _ _ X Y) as (E1 & E2 & ->). auto.
  - exact (C _ _ _ _ _ _ _ X Y).
Qed.
Lemma unmoved e : env_moved same e e.
Proof. unfold same. split; intros; try reflexivity; [destruct (find_mining e o p)|destruct (cpa_mining e o p b)|destruct (find_vault e p m)|destruct (cpa_vault e p m b)]; reflexivity. Qed.
Lemma renaming_id : renaming same.
Proof. unfold same. split; auto. Qed.
Lemma whole_zero : whole_days 0.
Proof. split; [lia|reflexivity]. Qed.
(** before the program was ever used, moving dates changes nothing of its *)
Lemma genesis_same d e L k : whole_days d -> genesis e L -> a_owner (acc L k) = program_id e ->
  acc (move_ledger same d L) k = acc L k.
Proof.
  intros D G Ho. change k with (same k) at 1. rewrite (acc_move same d renaming_id L k). destruct (G k) as [_ Z]. specialize (Z Ho).
  destruct (acc L k) as [l o x]. unfold move_account. cbn in *. f_equal.
  destruct x as [| |[[x1 x2 x3 x4 x5 x6 x7 x8 x9 x10] y z]|[[x1 x2 x3 x4 x5 x6 x7 x8 x9] y]| | |]; try reflexivity; try discriminate Z; cbn [all_zero] in Z;
    unfold tmap_eqb in Z; rewrite ?andb_true_iff, ?bool_decide_eq_true in Z.
  - assert (y = [] /\ z = [] /\ x7 = 0) as (-> & -> & ->) by (repeat split; try tauto; lia). reflexivity.
  - assert (y = []) as -> by tauto. reflexivity.
Qed.

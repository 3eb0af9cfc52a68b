(** The twelve instruction processors and the dispatcher:
    /repo/programs/rewards/src/instructions/*.rs, asserts.rs. *)
From stdpp Require Import gmap.
From Verif Require Import Base OMap State Ledger.

(** RewardsInstruction: instruction.rs 12-171 *)
Inductive ix :=
| InitializePool (fill_authority distribute_authority : pubkey)
| FillVault (rewards ends_at : Z)
| InitializeMining (mining_owner : pubkey)
| DepositMining (amount : Z) (period : lockup) (mining_owner delegate : pubkey)
| WithdrawMining (amount : Z) (mining_owner delegate : pubkey)
| Claim
| ExtendStake (old_period new_period : lockup) (start_ts base additional : Z)
              (mining_owner delegate : pubkey)
| DistributeRewards
| CloseMining
| ChangeDelegate (staked_amount : Z) (new_delegate : pubkey)
| Slash (mining_owner : pubkey) (native weighted : Z) (expiration : option Z)
| DecreaseRewards (mining_owner : pubkey) (number : Z).

(** RefCell borrow conflict: two live mutable borrows of one account's data panic *)
Definition distinct (a b : pubkey) (e : err) : res unit := ensure (negb (a =? b)) e.

(** asserts.rs 101-140 *)
Definition assert_and_get (e : env) (L : ledger) (owner mining pool auth : pubkey)
  : res (wpool * wmining) :=
  let? m := load_mining (a_data (acc L mining)) in
  let? p := load_pool (a_data (acc L pool)) in
  let? k := pda (cpa_mining e owner pool (m_bump (wm m))) in
  let? _ := assert_account_key mining k in
  let? _ := assert_account_key auth (p_deposit_auth (wp p)) in
  let? _ := assert_account_key pool (m_pool (wm m)) in
  check? owner =? m_owner (wm m) else EInvalidArgument in
  Ok (p, m).

(** utils.rs 121-142; the pool is mutably borrowed at that point, so a delegate
    account equal to the pool panics in [data.borrow()] *)
Definition verify_delegate (e : env) (L : ledger) (dm delegate pool : pubkey) : res unit :=
  let? _ := distinct dm pool EPanic in
  let? m := load_mining (a_data (acc L dm)) in
  match cpa_mining e delegate pool (m_bump (wm m)) with
  | None => Err DerivationError
  | Some k => ensure (dm =? k) InvalidMining
  end.

(** utils.rs 109-119 (get_delegate_mining) followed by the verification of
    deposit_mining.rs 35-38, withdraw_mining.rs 36-39, extend_stake.rs 39-43,
    change_delegate.rs 40-48 *)
Definition verify_opt (e : env) (L : ledger) (dm mining delegate pool : pubkey) : res unit :=
  if mining =? dm then Ok tt else verify_delegate e L dm delegate pool.

(** the delegate as passed to the pool methods *)
Definition dlg_of (L : ledger) (dm mining : pubkey) : dlg :=
  if mining =? dm then None else Some (load_mining (a_data (acc L dm))).

(** writing back through the mutable borrows *)
Definition put_pool (L : ledger) (k : pubkey) (p : wpool) : ledger := put_data L k (DPool p).
(** writing a mining back *)
Definition put_mining (L : ledger) (k : pubkey) (m : wmining) : ledger := put_data L k (DMining m).
(** writing the delegate back, if there is one *)
Definition put_dlg (L : ledger) (k : pubkey) (d : option wmining) : ledger :=
  match d with None => L | Some m => put_mining L k m end.

(** initialize_pool.rs 13-75.  While the pool's data is borrowed, a CPI that
    mentions the pool account fails (invoke checks the borrows). *)
Definition process_initialize_pool (e : env) (ms : list meta) (L : ledger)
    (fill_auth distribute_auth : pubkey) : res ledger :=
  let? (pool, it) := next_with_owner L (program_id e) ms in
  let? (mint, it) := next_with_owner L (spl_token_id e) it in
  let? (vault, it) := next_uninitialized L it in
  let? (payer, it) := next_signer ms it in
  let? (auth, it) := next_signer ms it in
  let? (_, it) := next_with_key (rent_id e) it in
  let? (_, it) := next_with_key (spl_token_id e) it in
  let? (_, it) := next_with_key system_id it in
  check? data_len (a_data (acc L pool)) =? POOL_LEN else EInvalidArgument in
  let? p := load_pool (a_data (acc L pool)) in
  check? negb (pool_is_initialized (wp p)) else AlreadyInitialized in
  let (vault_key, bump) := find_vault e pool mint in
  let? _ := assert_account_key vault vault_key in
  let? _ := distinct payer pool EBorrow in
  let? L1 := create_account ms L payer vault (rent_min e TOKEN_LEN) TOKEN_LEN (spl_token_id e) in
  let? _ := distinct auth pool EBorrow in
  let? L2 := initialize_account ms L1 vault mint auth in
  Ok (put_pool L2 pool (WPool (pool_initialize bump auth distribute_auth fill_auth mint) [] [])).

(** fill_vault.rs 11-81 *)
Definition process_fill_vault (e : env) (ts : Z) (ms : list meta) (L : ledger)
    (rewards ends_at : Z) : res ledger :=
  let? (pool, it) := next_with_owner L (program_id e) ms in
  let? (mint, it) := next_with_owner L (spl_token_id e) it in
  let? (vault, it) := next_with_owner L (spl_token_id e) it in
  let? (auth, it) := next_signer ms it in
  let? (source, it) := next_with_owner L (spl_token_id e) it in
  let? (_, it) := next_with_key (spl_token_id e) it in
  check? negb (rewards =? 0) else RewardsMustBeGreaterThanZero in
  let? w := load_pool (a_data (acc L pool)) in
  let? _ := assert_account_key auth (p_fill_auth (wp w)) in
  let? vk := pda (cpa_vault e pool mint (p_bump (wp w))) in
  let? _ := assert_account_key vault vk in
  let? w' := fill_pool ts rewards ends_at w in
  let L1 := put_pool L pool w' in
  let? _ := distinct auth pool EBorrow in
  spl_transfer ms L1 source vault auth rewards.

(** initialize_mining.rs 11-50 *)
Definition process_initialize_mining (e : env) (ms : list meta) (L : ledger)
    (owner : pubkey) : res ledger :=
  let? (pool, it) := next_with_owner L (program_id e) ms in
  let? (mining, it) := next_uninitialized L it in
  let? (payer, it) := next_signer ms it in
  let? (_, it) := next_with_key system_id it in
  let (key, bump) := find_mining e owner pool in
  let? _ := assert_account_key mining key in
  let? L1 := create_account ms L payer mining (rent_min e MINING_LEN) MINING_LEN (program_id e) in
  let? _ := load_mining (a_data (acc L1 mining)) in
  Ok (put_mining L1 mining (WMining (mining_initialize pool owner bump) [])).

(** deposit_mining.rs 7-43 *)
Definition process_deposit (e : env) (ts : Z) (ms : list meta) (L : ledger)
    (amount : Z) (period : lockup) (owner delegate : pubkey) : res ledger :=
  let? (pool, it) := next_with_owner L (program_id e) ms in
  let? (mining, it) := next_with_owner L (program_id e) it in
  let? (auth, it) := next_signer ms it in
  let? (dm, it) := next_with_owner L (program_id e) it in
  let? _ := distinct mining pool EPanic in
  let? (w, m) := assert_and_get e L owner mining pool auth in
  let? _ := verify_opt e L dm mining delegate pool in
  let? (w', m', d') := deposit ts w m amount period (dlg_of L dm mining) in
  Ok (put_dlg (put_mining (put_pool L pool w') mining m') dm d').

(** withdraw_mining.rs 9-44 *)
Definition process_withdraw (e : env) (ts : Z) (ms : list meta) (L : ledger)
    (amount : Z) (owner delegate : pubkey) : res ledger :=
  let? (pool, it) := next_with_owner L (program_id e) ms in
  let? (mining, it) := next_with_owner L (program_id e) it in
  let? (auth, it) := next_signer ms it in
  let? (dm, it) := next_with_owner L (program_id e) it in
  let? _ := distinct mining pool EPanic in
  let? (w, m) := assert_and_get e L owner mining pool auth in
  let? _ := verify_opt e L dm mining delegate pool in
  let? (w', m', d') := withdraw ts w m amount (dlg_of L dm mining) in
  Ok (put_dlg (put_mining (put_pool L pool w') mining m') dm d').

(** extend_stake.rs 8-56 *)
Definition process_extend (e : env) (ts : Z) (ms : list meta) (L : ledger)
    (old_p new_p : lockup) (start_ts base additional : Z) (owner delegate : pubkey) : res ledger :=
  let? (pool, it) := next_with_owner L (program_id e) ms in
  let? (mining, it) := next_with_owner L (program_id e) it in
  let? (auth, it) := next_signer ms it in
  let? (dm, it) := next_with_owner L (program_id e) it in
  let? _ := distinct mining pool EPanic in
  let? (w, m) := assert_and_get e L owner mining pool auth in
  let? _ := verify_opt e L dm mining delegate pool in
  let? (w', m', d') := extend ts w m old_p new_p start_ts base additional (dlg_of L dm mining) in
  Ok (put_dlg (put_mining (put_pool L pool w') mining m') dm d').

(** claim.rs 13-84; also returns the number set as return data *)
Definition process_claim (e : env) (ts : Z) (ms : list meta) (L : ledger) : res (ledger * Z) :=
  let? (pool, it) := next_with_owner L (program_id e) ms in
  let? (mint, it) := next_with_owner L (spl_token_id e) it in
  let? (vault, it) := next_with_owner L (spl_token_id e) it in
  let? (mining, it) := next_with_owner L (program_id e) it in
  let? (owner, it) := next_signer ms it in
  let? (auth, it) := next_signer ms it in
  let? (dest, it) := next_with_owner L (spl_token_id e) it in
  let? (_, it) := next_with_key (spl_token_id e) it in
  let? t := load_token (a_data (acc L dest)) in
  let? _ := assert_account_key owner (t_owner t) in
  let? w := load_pool (a_data (acc L pool)) in
  let? _ := assert_account_key auth (p_deposit_auth (wp w)) in
  let? _ := distinct mining pool EPanic in
  let? m := load_mining (a_data (acc L mining)) in
  let? _ := assert_account_key owner (m_owner (wm m)) in
  let? _ := assert_account_key pool (m_pool (wm m)) in
  let? vk := pda (cpa_vault e pool mint (p_bump (wp w))) in
  let? _ := assert_account_key vault vk in
  let? m1 := refresh ts (wp_ci w) m in
  let amount := m_unclaimed (wm m1) in
  let L1 := put_mining L mining (WMining (mining_claim (wm m1)) (wm_diffs m1)) in
  let? L2 := (if 0 <? amount then spl_transfer ms L1 vault dest auth amount else Ok L1) in
  Ok (L2, amount).

(** distribute_rewards.rs 5-25 *)
Definition process_distribute (e : env) (ts : Z) (ms : list meta) (L : ledger) : res ledger :=
  let? (pool, it) := next_with_owner L (program_id e) ms in
  let? (auth, it) := next_signer ms it in
  let? w := load_pool (a_data (acc L pool)) in
  let? rewards := rewards_to_distribute ts (wp w) in
  let? _ := assert_account_key auth (p_distribute_auth (wp w)) in
  let? w' := distribute ts rewards w in
  Ok (put_pool L pool w').

(** close_mining.rs 11-55 *)
Definition process_close (e : env) (ts : Z) (ms : list meta) (L : ledger) : res ledger :=
  let? (mining, it) := next_with_owner L (program_id e) ms in
  let? (owner, it) := next_signer ms it in
  let? (target, it) := next_with_owner L system_id it in
  let? (auth, it) := next_signer ms it in
  let? (pool, it) := next_with_owner L (program_id e) it in
  let? w := load_pool (a_data (acc L pool)) in
  let? _ := assert_account_key auth (p_deposit_auth (wp w)) in
  let? _ := distinct mining pool EPanic in
  let? m := load_mining (a_data (acc L mining)) in
  let? _ := assert_account_key owner (m_owner (wm m)) in
  let? m1 := refresh ts (wp_ci w) m in
  check? negb (0 <? m_sfo (wm m1)) else StakeFromOthersMustBeZero in
  check? m_unclaimed (wm m1) =? 0 else RewardsMustBeClaimed in
  let? lam := safe_add64 (a_lamports (acc L target)) (a_lamports (acc L mining)) in
  let L1 := put_lamports L target lam in
  Ok (<[mining := Account 0 (a_owner (acc L mining)) (zeros MINING_LEN)]> L1).

(** the old delegate as passed to change_delegate.  It is not verified; it is borrowed
    mutably in reward_pool.rs 174 while the pool is borrowed, which panics if it is the pool. *)
Definition old_dlg (L : ledger) (dm mining pool : pubkey) : dlg :=
  if dm =? pool then Some (Err EPanic) else dlg_of L dm mining.

(** change_delegate.rs 8-60 *)
Definition process_change_delegate (e : env) (ts : Z) (ms : list meta) (L : ledger)
    (amount : Z) (new_delegate : pubkey) : res ledger :=
  let? (pool, it) := next_with_owner L (program_id e) ms in
  let? (mining, it) := next_with_owner L (program_id e) it in
  let? (auth, it) := next_signer ms it in
  let? (owner, it) := next_signer ms it in
  let? (old_dm, it) := next_with_owner L (program_id e) it in
  let? (new_dm, it) := next_with_owner L (program_id e) it in
  check? negb (new_dm =? old_dm) else DelegatesAreTheSame in
  let? _ := distinct mining pool EPanic in
  let? (w, m) := assert_and_get e L owner mining pool auth in
  let? _ := verify_opt e L new_dm mining new_delegate pool in
  let? (w', m', od, nd) :=
    change_delegate ts w m (dlg_of L new_dm mining) (old_dlg L old_dm mining pool) amount in
  Ok (put_dlg (put_dlg (put_mining (put_pool L pool w') mining m') old_dm od) new_dm nd).

(** penalties/slash.rs 4-39 *)
Definition process_slash (e : env) (ts : Z) (ms : list meta) (L : ledger)
    (owner : pubkey) (native weighted : Z) (date : option Z) : res ledger :=
  let? (auth, it) := next_signer ms ms in
  let? (pool, it) := next_with_owner L (program_id e) it in
  let? (mining, it) := next_with_owner L (program_id e) it in
  let? _ := distinct mining pool EPanic in
  let? (w, m) := assert_and_get e L owner mining pool auth in
  let? (w', m') := slash ts w m native weighted date in
  Ok (put_mining (put_pool L pool w') mining m').

(** penalties/decrease_rewards.rs 4-32 *)
Definition process_decrease (e : env) (ms : list meta) (L : ledger)
    (owner : pubkey) (number : Z) : res ledger :=
  let? (auth, it) := next_signer ms ms in
  let? (pool, it) := next_with_owner L (program_id e) it in
  let? (mining, it) := next_with_owner L (program_id e) it in
  let? _ := distinct mining pool EPanic in
  let? (w, m) := assert_and_get e L owner mining pool auth in
  let? m' := decrease_rewards number m in
  Ok (put_mining L mining m').

(** no return data *)
Definition no_ret (r : res ledger) : res (ledger * option Z) :=
  let? L := r in Ok (L, None).

(** instructions/mod.rs 37-149 *)
Definition process (e : env) (ts : Z) (ms : list meta) (i : ix) (L : ledger)
  : res (ledger * option Z) :=
  match i with
  | InitializePool f d => no_ret (process_initialize_pool e ms L f d)
  | FillVault r x => no_ret (process_fill_vault e ts ms L r x)
  | InitializeMining o => no_ret (process_initialize_mining e ms L o)
  | DepositMining a p o d => no_ret (process_deposit e ts ms L a p o d)
  | WithdrawMining a o d => no_ret (process_withdraw e ts ms L a o d)
  | Claim => let? (L', x) := process_claim e ts ms L in Ok (L', Some x)
  | ExtendStake op np s b a o d => no_ret (process_extend e ts ms L op np s b a o d)
  | DistributeRewards => no_ret (process_distribute e ts ms L)
  | CloseMining => no_ret (process_close e ts ms L)
  | ChangeDelegate a n => no_ret (process_change_delegate e ts ms L a n)
  | Slash o n w d => no_ret (process_slash e ts ms L o n w d)
  | DecreaseRewards o n => no_ret (process_decrease e ms L o n)
  end.

(** One instruction as executed by the runtime: process, then the read-only
    check.  An error discards all changes (the ledger stays as it was). *)
Definition exec (e : env) (ts : Z) (ms : list meta) (i : ix) (L : ledger)
  : res (ledger * option Z) :=
  let? (L', r) := process e ts ms i L in
  check? readonly_ok ms L L' else EReadonly in
  Ok (L', r).

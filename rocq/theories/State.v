(** The program's state and its methods:
    /repo/programs/rewards/src/state/mining.rs, state/reward_pool.rs and
    LockupPeriod of utils.rs.  The clock is the parameter [ts]
    ([Clock::get().unwrap().unix_timestamp as u64]). *)
From Verif Require Import Base OMap.

(** * LockupPeriod: utils.rs 232-284 *)

(** utils.rs 234-245 *)
Inductive lockup := LNone | LFlex | L3M | L6M | L1Y.

(** [PartialEq] of LockupPeriod (derived, utils.rs 233) *)
Definition lockup_eqb (a b : lockup) : bool :=
  match a, b with
  | LNone, LNone | LFlex, LFlex | L3M, L3M | L6M, L6M | L1Y, L1Y => true
  | _, _ => false
  end.

(** utils.rs 250-258 *)
Definition multiplier (p : lockup) : Z :=
  match p with LNone => 0 | L3M => 2 | L6M => 4 | L1Y => 6 | LFlex => 1 end.

(** utils.rs 261-272 *)
Definition end_timestamp (p : lockup) (start_ts : Z) : res Z :=
  match p with
  | LNone => Err InvalidLockupPeriod
  | L3M => plain_add64 (bod start_ts) (DAY * 90)
  | L6M => plain_add64 (bod start_ts) (DAY * 180)
  | L1Y => plain_add64 (bod start_ts) (DAY * 365)
  | LFlex => plain_add64 (bod start_ts) (DAY * 5)
  end.

(** utils.rs 275-283 (not called by the program itself) *)
Definition lockup_days (p : lockup) : res Z :=
  match p with
  | LNone => Err InvalidLockupPeriod
  | L3M => Ok 90 | L6M => Ok 180 | L1Y => Ok 365 | LFlex => Ok 5
  end.

(** * Mining: state/mining.rs *)

(** mining.rs 113-141.  Of [data : [u8; 7]] only byte 0, the account type, is
    modelled ([m_type]); the other bytes are always zero. *)
Record mining := Mining {
  m_pool : pubkey;
  m_owner : pubkey;
  m_mint : pubkey;
  m_index : Z;
  m_share : Z;
  m_unclaimed : Z;
  m_sfo : Z;          (* stake_from_others *)
  m_bump : Z;
  m_type : Z }.

(** mining.rs 20-26: the header together with its tree *)
Record wmining := WMining { wm : mining; wm_diffs : tmap }.

(** AccountType numbers: state/mod.rs 46-54 *)
Definition TYPE_UNINIT : Z := 0.
(** state/mod.rs 50 *)
Definition TYPE_POOL : Z := 1.
(** state/mod.rs 51 *)
Definition TYPE_MINING : Z := 2.

(** a zero-filled mining account *)
Definition zero_mining : mining := Mining 0 0 0 0 0 0 0 0 0.
(** mining.rs 20-26, all bytes zero: the tree is empty *)
Definition zero_wmining : wmining := WMining zero_mining [].

(** field updates *)
Definition set_share (m : mining) (x : Z) : mining :=
  Mining (m_pool m) (m_owner m) (m_mint m) (m_index m) x (m_unclaimed m) (m_sfo m) (m_bump m) (m_type m).
(** assignment to stake_from_others: reward_pool.rs 177-180, 189-192, 255-257, 286-288, 400-403 *)
Definition set_sfo (m : mining) (x : Z) : mining :=
  Mining (m_pool m) (m_owner m) (m_mint m) (m_index m) (m_share m) (m_unclaimed m) x (m_bump m) (m_type m).
(** assignment to unclaimed_rewards and index_with_precision: mining.rs 221-230 *)
Definition set_rewards (m : mining) (unclaimed index : Z) : mining :=
  Mining (m_pool m) (m_owner m) (m_mint m) index (m_share m) unclaimed (m_sfo m) (m_bump m) (m_type m).

(** mining.rs 150-163 *)
Definition mining_initialize (reward_pool owner : pubkey) (bump : Z) : mining :=
  Mining reward_pool owner 0 0 0 0 0 bump TYPE_MINING.

(** mining.rs 170-172 *)
Definition mining_claim (m : mining) : mining := set_rewards m 0 (m_index m).

(** mining.rs 208-233; returns the new (unclaimed_rewards, index_with_precision) *)
Definition mining_update_index (ci : tmap) (date total_share unclaimed index : Z)
  : res (Z * Z) :=
  let vault_index := match find_lt date ci with Some v => v | None => 0 end in
  let? d := safe_sub vault_index index in
  let? p := safe_mul128 d total_share in
  let? q := safe_div p PRECISION in
  let? rewards := try_u64 q in
  let? unclaimed' :=
    (if 0 <? rewards then safe_add64 unclaimed rewards else Ok unclaimed) in
  Ok (unclaimed', vault_index).

(** the loop of mining.rs 183-198; returns
    (total_share, unclaimed, index, processed_dates) *)
Fixpoint mining_consume_loop (ci : tmap) (b : Z) (l : tmap)
    (total_share unclaimed index : Z) : res (Z * Z * Z * list Z) :=
  match l with
  | [] => Ok (total_share, unclaimed, index, [])
  | (date, modifier_diff) :: r =>
      if b <? date then Ok (total_share, unclaimed, index, [])
      else
        let? (unclaimed', index') :=
          mining_update_index ci date total_share unclaimed index in
        let? total_share' := safe_sub total_share modifier_diff in
        let? (t, u, i, ds) :=
          mining_consume_loop ci b r total_share' unclaimed' index' in
        Ok (t, u, i, date :: ds)
  end.

(** the removal loops of mining.rs 200-202 and reward_pool.rs 107-109 *)
Definition remove_dates (ds : list Z) (t : tmap) : tmap :=
  fold_left (fun t d => oremove d t) ds t.

(** mining.rs 175-205; returns (total_share, unclaimed, index, diffs) *)
Definition mining_consume (b total_share : Z) (ci : tmap) (unclaimed index : Z)
    (diffs : tmap) : res (Z * Z * Z * tmap) :=
  let? (t, u, i, ds) := mining_consume_loop ci b diffs total_share unclaimed index in
  Ok (t, u, i, remove_dates ds diffs).

(** mining.rs 56-77 *)
Definition refresh (ts : Z) (ci : tmap) (w : wmining) : res wmining :=
  let m := wm w in
  let? share := safe_add64 (m_share m) (m_sfo m) in
  let? (share1, u1, i1, diffs1) :=
    mining_consume (bod ts) share ci (m_unclaimed m) (m_index m) (wm_diffs w) in
  let? (u2, i2) := mining_update_index ci ts share1 u1 i1 in
  let? share2 := safe_sub share1 (m_sfo m) in
  Ok (WMining (set_share (set_rewards m u2 i2) share2) diffs1).

(** the loop of mining.rs 98-107; the list is traversed from the latest date *)
Fixpoint decrease_loop (d : Z) (l : tmap) : res tmap :=
  match l with
  | [] => Ok []
  | (date, v) :: r =>
      if d <=? v then
        let? v' := safe_sub v d in
        Ok ((date, v') :: r)
      else
        let? d' := safe_sub d v in
        let? r' := decrease_loop d' r in
        Ok ((date, 0) :: r')
  end.

(** mining.rs 80-110 *)
Definition decrease_rewards (d : Z) (w : wmining) : res wmining :=
  if d =? 0 then Ok w
  else if m_share (wm w) <? d then Err DecreaseRewardsTooBig
  else
    let? s := safe_sub (m_share (wm w)) d in
    let? l := decrease_loop d (rev (wm_diffs w)) in
    Ok (WMining (set_share (wm w) s) (rev l)).

(** * RewardPool: state/reward_pool.rs *)

(** reward_pool.rs 424-456; of [data] only the account type byte is modelled *)
Record pool := Pool {
  p_deposit_auth : pubkey;
  p_distribute_auth : pubkey;
  p_fill_auth : pubkey;
  p_mint : pubkey;
  p_index : Z;
  p_total : Z;
  p_ends_at : Z;
  p_avail : Z;
  p_bump : Z;
  p_type : Z }.

(** reward_pool.rs 23-32: header, schedule of expiries, index history *)
Record wpool := WPool { wp : pool; wp_diffs : tmap; wp_ci : tmap }.

(** a zero-filled pool account *)
Definition zero_pool : pool := Pool 0 0 0 0 0 0 0 0 0 0.
(** reward_pool.rs 23-32, all bytes zero: the trees are empty *)
Definition zero_wpool : wpool := WPool zero_pool [] [].

(** field updates *)
Definition set_total (p : pool) (x : Z) : pool :=
  Pool (p_deposit_auth p) (p_distribute_auth p) (p_fill_auth p) (p_mint p) (p_index p) x
       (p_ends_at p) (p_avail p) (p_bump p) (p_type p).
(** assignment to index_with_precision: reward_pool.rs 128 *)
Definition set_index (p : pool) (x : Z) : pool :=
  Pool (p_deposit_auth p) (p_distribute_auth p) (p_fill_auth p) (p_mint p) x (p_total p)
       (p_ends_at p) (p_avail p) (p_bump p) (p_type p).
(** assignment to tokens_available_for_distribution: reward_pool.rs 156-159, fill_vault.rs 66-69 *)
Definition set_avail (p : pool) (x : Z) : pool :=
  Pool (p_deposit_auth p) (p_distribute_auth p) (p_fill_auth p) (p_mint p) (p_index p) (p_total p)
       (p_ends_at p) x (p_bump p) (p_type p).
(** assignment to distribution_ends_at: fill_vault.rs 61-64 *)
Definition set_ends (p : pool) (x : Z) : pool :=
  Pool (p_deposit_auth p) (p_distribute_auth p) (p_fill_auth p) (p_mint p) (p_index p) (p_total p)
       x (p_avail p) (p_bump p) (p_type p).
(** assignment to total_share through the wrapper: reward_pool.rs 142, 181, 193, 218, 258, 274, 280, 289, 375, 386, 404 *)
Definition set_wtotal (w : wpool) (x : Z) : wpool :=
  WPool (set_total (wp w) x) (wp_diffs w) (wp_ci w).

(** reward_pool.rs 464-483 *)
Definition pool_initialize (bump : Z) (deposit_auth distribute_auth fill_auth mint : pubkey) : pool :=
  Pool deposit_auth distribute_auth fill_auth mint 0 0 0 0 bump TYPE_POOL.

(** reward_pool.rs 520-524: IsInitialized *)
Definition pool_is_initialized (p : pool) : bool := p_type p =? TYPE_POOL.

(** the loop of reward_pool.rs 99-106; returns (total_share, processed_dates) *)
Fixpoint pool_consume_loop (b : Z) (l : tmap) (total_share : Z) : res (Z * list Z) :=
  match l with
  | [] => Ok (total_share, [])
  | (date, modifier) :: r =>
      if b <? date then Ok (total_share, [])
      else
        let? t := safe_sub total_share modifier in
        let? (t', ds) := pool_consume_loop b r t in
        Ok (t', date :: ds)
  end.

(** reward_pool.rs 93-111; returns the new total share and the new schedule *)
Definition pool_consume (b total_share : Z) (diffs : tmap) : res (Z * tmap) :=
  let? (t, ds) := pool_consume_loop b diffs total_share in
  Ok (t, remove_dates ds diffs).

(** reward_pool.rs 114-131; returns the new (cumulative_index, index_with_precision) *)
Definition pool_update_index (ci : tmap) (index rewards total_share date : Z) : res (tmap * Z) :=
  let? a := safe_mul128 PRECISION rewards in
  let? i := safe_div a total_share in
  let? latest := safe_add128 index i in
  Ok (oinsert HISTORY_CAP date latest ci, latest).

(** reward_pool.rs 134-162 *)
Definition distribute (ts rewards : Z) (w : wpool) : res wpool :=
  check? negb (p_total (wp w) =? 0) else RewardsNoDeposits in
  let b := bod ts in
  let? (total, diffs) := pool_consume b (p_total (wp w)) (wp_diffs w) in
  let p1 := set_total (wp w) total in
  if ohas b (wp_ci w) then Ok (WPool p1 diffs (wp_ci w))
  else
    let? (ci, index) := pool_update_index (wp_ci w) (p_index p1) rewards (p_total p1) b in
    let? avail := safe_sub (p_avail p1) rewards in
    Ok (WPool (set_avail (set_index p1 index) avail) diffs ci).

(** reward_pool.rs 487-503 *)
Definition rewards_to_distribute (ts : Z) (p : pool) : res Z :=
  let days_left := saturating_sub (p_ends_at p) ts / DAY in
  if days_left =? 0 then Ok (p_avail p)
  else
    let? a := safe_mul128 (p_avail p) PRECISION in
    let? b := safe_div a days_left in
    let? c := safe_div b PRECISION in
    try_u64 c.

(** get_mut at a date followed by a checked subtraction:
    reward_pool.rs 505-517 (modify_weighted_stake_diffs), 313-317, 319-323 *)
Definition modify_diffs (t : tmap) (date d : Z) : res tmap :=
  match oget date t with
  | None => Err NoWeightedStakeModifiersAtADate
  | Some v => let? v' := safe_sub v d in Ok (oput date v' t)
  end.

(** A delegate account passed as [Option<&AccountInfo>]: [None] when it is the
    staker's own mining; otherwise the result of reading the account with
    [WrappedMining::from_bytes_mut] (reward_pool.rs 175, 187, 253, 284, 398). *)
Definition dlg := option (res wmining).

(** the block reward_pool.rs 251-260 (and 185-195): credit a delegate *)
Definition delegate_add (ts amount : Z) (ci : tmap) (total : Z) (d : dlg)
  : res (Z * option wmining) :=
  match d with
  | None => Ok (total, None)
  | Some rd =>
      let? w := rd in
      let? sfo := safe_add64 (m_sfo (wm w)) amount in
      let? total' := safe_add64 total amount in
      let? w' := refresh ts ci (WMining (set_sfo (wm w) sfo) (wm_diffs w)) in
      Ok (total', Some w')
  end.

(** the block reward_pool.rs 282-291 (and 173-183, 395-410): debit a delegate *)
Definition delegate_sub (ts amount : Z) (ci : tmap) (total : Z) (d : dlg)
  : res (Z * option wmining) :=
  match d with
  | None => Ok (total, None)
  | Some rd =>
      let? w := rd in
      let? sfo := safe_sub (m_sfo (wm w)) amount in
      let? total' := safe_sub total amount in
      let? w' := refresh ts ci (WMining (set_sfo (wm w) sfo) (wm_diffs w)) in
      Ok (total', Some w')
  end.

(** reward_pool.rs 164-198; returns (pool, mining, old delegate, new delegate) *)
Definition change_delegate (ts : Z) (w : wpool) (m : wmining) (new_d old_d : dlg) (amount : Z)
  : res (wpool * wmining * option wmining * option wmining) :=
  let? m1 := refresh ts (wp_ci w) m in
  let? (t1, od) := delegate_sub ts amount (wp_ci w) (p_total (wp w)) old_d in
  let? (t2, nd) := delegate_add ts amount (wp_ci w) t1 new_d in
  Ok (set_wtotal w t2, m1, od, nd).

(** the schedule update of the staker's mining, reward_pool.rs 235-249 *)
Definition add_mining_diff (t : tmap) (date d : Z) : res tmap :=
  match oget date t with
  | Some v => let? v' := safe_add64 v d in Ok (oput date v' t)
  | None => Ok (oinsert MINING_CAP date d t)
  end.

(** the schedule update of the pool, reward_pool.rs 223-233 *)
Definition add_pool_diff (t : tmap) (date d : Z) : res tmap :=
  let modifier := match oget date t with Some v => v | None => 0 end in
  let? v' := safe_add64 modifier d in
  Ok (oinsert POOL_CAP date v' t).

(** reward_pool.rs 201-263; returns (pool, mining, delegate) *)
Definition deposit (ts : Z) (w : wpool) (m : wmining) (amount : Z) (p : lockup) (d : dlg)
  : res (wpool * wmining * option wmining) :=
  let? m1 := refresh ts (wp_ci w) m in
  let? weighted := safe_mul64 amount (multiplier p) in
  let? flex := safe_mul64 amount (multiplier LFlex) in
  let? diff := safe_sub weighted flex in
  let? total := safe_add64 (p_total (wp w)) weighted in
  let? share := safe_add64 (m_share (wm m1)) weighted in
  let? date := end_timestamp p ts in
  let? pdiffs := add_pool_diff (wp_diffs w) date diff in
  let? mdiffs := add_mining_diff (wm_diffs m1) date diff in
  let? (total', d') := delegate_add ts amount (wp_ci w) total d in
  Ok (WPool (set_total (wp w) total') pdiffs (wp_ci w),
      WMining (set_share (wm m1) share) mdiffs, d').

(** reward_pool.rs 266-294; returns (pool, mining, delegate) *)
Definition withdraw (ts : Z) (w : wpool) (m : wmining) (amount : Z) (d : dlg)
  : res (wpool * wmining * option wmining) :=
  let? m1 := refresh ts (wp_ci w) m in
  let? total := safe_sub (p_total (wp w)) amount in
  let? share := safe_sub (m_share (wm m1)) amount in
  let? (total1, pdiffs) := pool_consume (bod ts) total (wp_diffs w) in
  let? (total', d') := delegate_sub ts amount (wp_ci w) total1 d in
  Ok (WPool (set_total (wp w) total') pdiffs (wp_ci w),
      WMining (set_share (wm m1) share) (wm_diffs m1), d').

(** reward_pool.rs 297-327 *)
Definition slash (ts : Z) (w : wpool) (m : wmining) (native weighted : Z) (date : option Z)
  : res (wpool * wmining) :=
  let? (w1, m1, _) := withdraw ts w m weighted None in
  match date with
  | None => Ok (w1, m1)
  | Some dt =>
      let b := bod dt in
      let? diff := safe_sub weighted native in
      let? mdiffs := modify_diffs (wm_diffs m1) b diff in
      let? pdiffs := modify_diffs (wp_diffs w1) b diff in
      Ok (WPool (wp w1) pdiffs (wp_ci w1), WMining (wm m1) mdiffs)
  end.

(** reward_pool.rs 331-420; returns (pool, mining, delegate) *)
Definition extend (ts : Z) (w : wpool) (m : wmining) (old_p new_p : lockup)
    (start_ts base additional : Z) (d : dlg) : res (wpool * wmining * option wmining) :=
  let? m1 := refresh ts (wp_ci w) m in
  let? old_exp := (if lockup_eqb old_p LFlex then Ok 0 else end_timestamp old_p start_ts) in
  let? flex := safe_mul64 base (multiplier LFlex) in
  let? (m2, total) :=
    (if ts <? old_exp then
       let? cur := safe_mul64 base (multiplier old_p) in
       let? diff := safe_sub cur flex in
       let? mdiffs := modify_diffs (wm_diffs m1) old_exp diff in
       let? share := safe_sub (m_share (wm m1)) cur in
       let? total := safe_sub (p_total (wp w)) cur in
       Ok (WMining (set_share (wm m1) share) mdiffs, total)
     else
       let? share := safe_sub (m_share (wm m1)) flex in
       let? total := safe_sub (p_total (wp w)) flex in
       Ok (WMining (set_share (wm m1) share) (wm_diffs m1), total)) in
  let? amount := safe_add64 base additional in
  let? (total', d1) := delegate_sub ts base (wp_ci w) total d in
  deposit ts (set_wtotal w total') m2 amount new_p
    (match d1 with None => None | Some x => Some (Ok x) end).

(** fill_vault.rs 48-70: the pool part of FillVault *)
Definition fill_pool (ts rewards ends_at : Z) (w : wpool) : res wpool :=
  let end_day := bod ends_at in
  let today := bod ts in
  check? negb (end_day <? today) else DistributionInThePast in
  let? days_diff := safe_sub end_day (p_ends_at (wp w)) in
  let? ends := safe_add64 (p_ends_at (wp w)) days_diff in
  let? avail := safe_add64 (p_avail (wp w)) rewards in
  Ok (WPool (set_avail (set_ends (wp w) ends) avail) (wp_diffs w) (wp_ci w)).

(** The exact conditions under which each instruction succeeds, in terms of Spec.v,
    EffectSpec.v and LedgerSpec.v only.  Written from the account comments of
    programs/rewards/src/instruction.rs 13-169 and the meaning of the instructions;
    nothing here mentions a function of the program. *)
From stdpp Require Import gmap.
From Verif Require Import Base State Spec EffectSpec Ledger Program LedgerLemmas LedgerSpec HistoryThms.

(** fits into 64 bits *)
Notation fits x := (x < 18446744073709551616).

(** weighted own stake, and tokens to claim, of a mining brought up to date at [ts] *)
Definition share_at (ts : Z) (m : wmining) : Z :=
  m_share (wm m) - due (day_start ts) (wm_diffs m).
Definition tokens_at (ts : Z) (ci : sched) (m : wmining) : Z :=
  m_unclaimed (wm m) +
  earned ci (m_share (wm m) + m_sfo (wm m)) (m_index (wm m)) (upto (day_start ts) (wm_diffs m)) ts.

(** A mining can be brought up to date at [ts] with the history [ci]: the weighted stake
    fits, no more expires than there is, the recorded index is not ahead of the history,
    and the tokens fit.  (mining.rs 56-77, 175-233) *)
Record can_refresh (ts : Z) (ci : sched) (m : wmining) : Prop := {
  cr_fits : fits (m_share (wm m) + m_sfo (wm m));
  cr_due : due (day_start ts) (wm_diffs m) <= m_share (wm m);
  cr_index : m_index (wm m) <= visible ts ci;
  cr_first : forall d v, In (d, v) (wm_diffs m) -> d <= day_start ts -> m_index (wm m) <= visible d ci;
  cr_tokens : fits (tokens_at ts ci m) }.

(** a delegate can get, or lose, [a] delegated-in stake when the pool's total is [t]
    (reward_pool.rs 251-260, 282-291) *)
Definition can_join (ts : Z) (ci : sched) (a t : Z) (d : option wmining) : Prop :=
  match d with
  | None => True
  | Some x => fits (m_sfo (wm x) + a) /\ fits (t + a) /\
              can_refresh ts ci (with_delegated x (m_sfo (wm x) + a))
  end.
Definition can_leave (ts : Z) (ci : sched) (a t : Z) (d : option wmining) : Prop :=
  match d with
  | None => True
  | Some x => a <= m_sfo (wm x) /\ a <= t /\
              can_refresh ts ci (with_delegated x (m_sfo (wm x) - a))
  end.
(** [a] if a delegate takes part *)
Definition for_delegate (d : option wmining) (a : Z) : Z := match d with None => 0 | Some _ => a end.

(** reward_pool.rs 201-263 *)
Definition can_deposit (ts : Z) (w : wpool) (m : wmining) (a : Z) (p : lockup) (d : option wmining) : Prop :=
  p <> LNone /\ can_refresh ts (wp_ci w) m /\
  fits (a * weight_of p) /\
  fits (p_total (wp w) + a * weight_of p) /\
  fits (share_at ts m + a * weight_of p) /\
  fits (expiry p ts) /\
  fits (at_date (expiry p ts) (wp_diffs w) + a * (weight_of p - 1)) /\
  fits (at_date (expiry p ts) (wm_diffs m) + a * (weight_of p - 1)) /\
  can_join ts (wp_ci w) a (p_total (wp w) + a * weight_of p) d.

(** reward_pool.rs 266-294 *)
Definition can_withdraw (ts : Z) (w : wpool) (m : wmining) (a : Z) (d : option wmining) : Prop :=
  can_refresh ts (wp_ci w) m /\
  a <= share_at ts m /\
  a + due (day_start ts) (wp_diffs w) <= p_total (wp w) /\
  can_leave ts (wp_ci w) a (p_total (wp w) - a - due (day_start ts) (wp_diffs w)) d.

(** the date is recorded with at least [x] (reward_pool.rs 313-323) *)
Definition holds_at (d x : Z) (t : sched) : Prop := has_date d t /\ x <= at_date d t.

(** reward_pool.rs 297-327: the bonus named by the date is still to come, and recorded in
    both schedules *)
Definition can_slash (ts : Z) (w : wpool) (m : wmining) (native weighted : Z) (date : option Z) : Prop :=
  can_withdraw ts w m weighted None /\
  match date with
  | None => True
  | Some dt =>
      native <= weighted /\ day_start ts < day_start dt /\
      holds_at (day_start dt) (weighted - native) (wm_diffs m) /\
      holds_at (day_start dt) (weighted - native) (wp_diffs w)
  end.

(** weighted amount that a stake of [base] stands for before it is extended
    (reward_pool.rs 347-378) *)
Definition counted (op : lockup) (start ts base : Z) : Z :=
  if unexpired op start ts then base * weight_of op else base.

(** reward_pool.rs 331-420 *)
Definition can_extend (ts : Z) (w : wpool) (m : wmining) (op np : lockup) (start base extra : Z)
    (d : option wmining) : Prop :=
  let cur := counted op start ts base in
  let left := p_total (wp w) - cur - for_delegate d base in
  let new := (base + extra) * weight_of np in
  let bonus := (base + extra) * (weight_of np - 1) in
  op <> LNone /\ np <> LNone /\ can_refresh ts (wp_ci w) m /\
  (op <> LFlex -> fits (expiry op start)) /\
  (unexpired op start ts = true ->
     fits (base * weight_of op) /\
     holds_at (expiry op start) (base * (weight_of op - 1)) (wm_diffs m)) /\
  cur <= share_at ts m /\ cur <= p_total (wp w) /\
  fits (base + extra) /\ fits new /\ fits (left + new) /\ fits (share_at ts m - cur + new) /\
  fits (expiry np ts) /\
  fits (at_date (expiry np ts) (wp_diffs w) + bonus) /\
  fits (at_date (expiry np ts) (wm_diffs m)
        - (if unexpired op start ts && (expiry op start =? expiry np ts) then base * (weight_of op - 1) else 0)
        + bonus) /\
  can_leave ts (wp_ci w) base (p_total (wp w) - cur) d /\
  match d with
  | None => True
  | Some x => fits (m_sfo (wm x) + extra) /\ fits (left + new + base + extra) /\
              fits (share_at ts x + m_sfo (wm x) + extra)
  end.

(** reward_pool.rs 164-198 *)
Definition can_change (ts : Z) (w : wpool) (m : wmining) (a : Z) (old new : option wmining) : Prop :=
  can_refresh ts (wp_ci w) m /\
  can_leave ts (wp_ci w) a (p_total (wp w)) old /\
  can_join ts (wp_ci w) a (p_total (wp w) - for_delegate old a) new.

(** reward_pool.rs 134-162, 487-503 *)
Definition can_distribute (ts : Z) (w : wpool) : Prop :=
  let today := day_start ts in
  let left := p_total (wp w) - due today (wp_diffs w) in
  p_total (wp w) <> 0 /\ 0 <= left /\
  (has_date today (wp_ci w) \/
   0 < left /\
   p_index (wp w) + 10000000000000000 * daily_part (p_avail (wp w)) (p_ends_at (wp w)) ts / left
     < 340282366920938463463374607431768211456).

(** a token account can send [x] to another on the word of [auth] (SPL token program) *)
Definition can_send (e : env) (L : ledger) (src dst auth : pubkey) (x : Z) : Prop :=
  exists s d, data_of L src = DToken s /\ data_of L dst = DToken d /\
    t_owner s = auth /\ t_mint s = t_mint d /\ x <= t_amount s /\
    (src <> dst -> fits (t_amount d + x)).

(** the delegate's part in an instruction on [mining]: none when the account given is the
    mining itself *)
Definition delegate_part (e : env) (L : ledger) (mining dm : pubkey) (d : option wmining) : Prop :=
  dm = mining /\ d = None \/ dm <> mining /\ exists x, is_mining e L dm x /\ d = Some x.

(** a checked delegate: the mining derived for the wallet and the pool *)
Definition checked_delegate (e : env) (L : ledger) (mining dm pool wallet : pubkey) (d : option wmining) : Prop :=
  delegate_part e L mining dm d /\
  match d with None => True | Some x => cpa_mining e wallet pool (m_bump (wm x)) = Some dm end.

(** the accounts of a stake instruction: an initialised-looking pool whose deposit
    authority signs, and the mining of [owner] in that pool (asserts.rs 101-140) *)
Record stake_accounts (e : env) (ms : list meta) (L : ledger) (pool mining auth owner : pubkey)
    (w : wpool) (m : wmining) : Prop := {
  sa_pool : is_pool e L pool w;
  sa_mining : is_mining e L mining m;
  sa_auth : p_deposit_auth (wp w) = auth;
  sa_signed : signed ms auth;
  sa_owner : m_owner (wm m) = owner;
  sa_of : m_pool (wm m) = pool;
  sa_derived : cpa_mining e owner pool (m_bump (wm m)) = Some mining }.

(** an account that can be created: no lamports, no data, nobody's *)
Definition vacant (L : ledger) (k : pubkey) : Prop :=
  lamports_of L k = 0 /\ owner_of L k = system_id /\ (data_of L k = DEmpty \/ data_of L k = DZeros 0).
(** a wallet able to pay [x] lamports *)
Definition can_pay (ms : list meta) (L : ledger) (k : pubkey) (x : Z) : Prop :=
  signed ms k /\ owner_of L k = system_id /\ data_len (data_of L k) = 0 /\ x <= lamports_of L k.

(** The instruction is allowed. *)
Definition allowed (e : env) (ts : Z) (ms : list meta) (i : ix) (L : ledger) : Prop :=
  match i with
  | InitializePool _ _ =>
      exists pool mint vault payer auth w,
        accounts_are ms [pool; mint; vault; payer; auth; rent_id e; spl_token_id e; system_id] /\
        is_pool e L pool w /\ p_type (wp w) <> 1 /\
        owner_of L mint = spl_token_id e /\ data_of L mint = DMint /\
        fst (find_vault e pool mint) = vault /\ vacant L vault /\
        can_pay ms L payer (rent_min e 165) /\ payer <> vault /\
        signed ms auth /\ auth <> pool
  | InitializeMining owner =>
      exists pool mining payer,
        accounts_are ms [pool; mining; payer; system_id] /\
        owner_of L pool = program_id e /\
        fst (find_mining e owner pool) = mining /\ vacant L mining /\
        can_pay ms L payer (rent_min e 1776) /\ payer <> mining
  | FillVault r x =>
      exists pool mint vault auth source w,
        accounts_are ms [pool; mint; vault; auth; source; spl_token_id e] /\
        is_pool e L pool w /\ owner_of L mint = spl_token_id e /\
        owner_of L vault = spl_token_id e /\ owner_of L source = spl_token_id e /\
        p_fill_auth (wp w) = auth /\ signed ms auth /\ auth <> pool /\
        cpa_vault e pool mint (p_bump (wp w)) = Some vault /\
        r <> 0 /\ day_start ts <= day_start x /\ p_ends_at (wp w) <= day_start x /\
        fits (p_avail (wp w) + r) /\
        can_send e L source vault auth r
  | DepositMining a p owner wallet =>
      exists pool mining auth dm w m d,
        accounts_are ms [pool; mining; auth; dm] /\
        stake_accounts e ms L pool mining auth owner w m /\
        checked_delegate e L mining dm pool wallet d /\ can_deposit ts w m a p d
  | WithdrawMining a owner wallet =>
      exists pool mining auth dm w m d,
        accounts_are ms [pool; mining; auth; dm] /\
        stake_accounts e ms L pool mining auth owner w m /\
        checked_delegate e L mining dm pool wallet d /\ can_withdraw ts w m a d
  | ExtendStake op np start base extra owner wallet =>
      exists pool mining auth dm w m d,
        accounts_are ms [pool; mining; auth; dm] /\
        stake_accounts e ms L pool mining auth owner w m /\
        checked_delegate e L mining dm pool wallet d /\ can_extend ts w m op np start base extra d
  | ChangeDelegate a wallet =>
      exists pool mining auth owner old_dm new_dm w m old new,
        accounts_are ms [pool; mining; auth; owner; old_dm; new_dm] /\
        stake_accounts e ms L pool mining auth owner w m /\ signed ms owner /\
        old_dm <> new_dm /\
        delegate_part e L mining old_dm old /\
        checked_delegate e L mining new_dm pool wallet new /\ can_change ts w m a old new
  | Slash owner native weighted date =>
      exists auth pool mining w m,
        accounts_are ms [auth; pool; mining] /\
        stake_accounts e ms L pool mining auth owner w m /\ can_slash ts w m native weighted date
  | DecreaseRewards owner n =>
      exists auth pool mining w m,
        accounts_are ms [auth; pool; mining] /\
        stake_accounts e ms L pool mining auth owner w m /\ n <= m_share (wm m)
  | DistributeRewards =>
      exists pool auth w,
        accounts_are ms [pool; auth] /\ is_pool e L pool w /\
        p_distribute_auth (wp w) = auth /\ signed ms auth /\ can_distribute ts w
  | Claim =>
      exists pool mint vault mining owner auth dest w m t,
        accounts_are ms [pool; mint; vault; mining; owner; auth; dest; spl_token_id e] /\
        is_pool e L pool w /\ is_mining e L mining m /\
        owner_of L mint = spl_token_id e /\ owner_of L vault = spl_token_id e /\
        owner_of L dest = spl_token_id e /\ data_of L dest = DToken t /\ t_owner t = owner /\
        signed ms owner /\ signed ms auth /\
        p_deposit_auth (wp w) = auth /\ m_owner (wm m) = owner /\ m_pool (wm m) = pool /\
        cpa_vault e pool mint (p_bump (wp w)) = Some vault /\
        can_refresh ts (wp_ci w) m /\
        (0 < tokens_at ts (wp_ci w) m -> can_send e L vault dest auth (tokens_at ts (wp_ci w) m))
  | CloseMining =>
      exists mining owner target auth pool w m,
        accounts_are ms [mining; owner; target; auth; pool] /\
        is_pool e L pool w /\ is_mining e L mining m /\ owner_of L target = system_id /\
        signed ms owner /\ signed ms auth /\
        p_deposit_auth (wp w) = auth /\ m_owner (wm m) = owner /\
        can_refresh ts (wp_ci w) m /\ m_sfo (wm m) = 0 /\ tokens_at ts (wp_ci w) m = 0 /\
        fits (lamports_of L target + lamports_of L mining)
  end.

(** the accounts that an allowed call hands on to the token or system program as writable: for
    the creation of accounts, for a filling, and for a claim that pays *)
Definition hands_on (e : env) (ts : Z) (ms : list meta) (i : ix) (L : ledger) (k : pubkey) : Prop :=
  match i with
  | InitializePool _ _ => account_at ms 2 k \/ account_at ms 3 k
  | FillVault _ _ => account_at ms 2 k \/ account_at ms 4 k
  | InitializeMining _ => account_at ms 1 k \/ account_at ms 2 k
  | Claim =>
      (account_at ms 2 k \/ account_at ms 6 k) /\
      exists pool mining w m, account_at ms 0 pool /\ account_at ms 3 mining /\
        is_pool e L pool w /\ is_mining e L mining m /\ 0 < tokens_at ts (wp_ci w) m
  | _ => False
  end.

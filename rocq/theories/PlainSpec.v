(** What it takes for an instruction on an orderly pool to succeed: the conditions of
    SuccessSpec.v less everything the pool's own bookkeeping guarantees.  Nothing here is
    about schedules catching up, indexes, or the vault covering a claim; what is left are the
    accounts, the caller's amounts, and 64-bit room. *)
From stdpp Require Import gmap.
From Verif Require Import Base State Spec EffectSpec Core Ledger Program LedgerLemmas LedgerSpec HistoryThms SuccessSpec LedgerView.

(** a delegate gains [a]: its stake and the rewards it is credited with fit (reward_pool.rs 251-260) *)
Definition plain_join (ts : Z) (ci : sched) (a : Z) (d : option wmining) : Prop :=
  match d with
  | None => True
  | Some x => fits (m_share (wm x) + m_sfo (wm x) + a) /\
              fits (tokens_at ts ci (with_delegated x (m_sfo (wm x) + a)))
  end.
(** a delegate has [a] delegated-in stake to lose (reward_pool.rs 282-291) *)
Definition plain_leave (a : Z) (d : option wmining) : Prop :=
  match d with None => True | Some x => a <= m_sfo (wm x) end.

(** reward_pool.rs 201-263 *)
Definition plain_deposit (ts : Z) (w : wpool) (a : Z) (p : lockup) (d : option wmining) : Prop :=
  p <> LNone /\ fits (expiry p ts) /\
  fits (p_total (wp w) + a * weight_of p + for_delegate d a) /\ plain_join ts (wp_ci w) a d.

(** reward_pool.rs 266-294 *)
Definition plain_withdraw (ts : Z) (m : wmining) (a : Z) (d : option wmining) : Prop :=
  a <= share_at ts m /\ plain_leave a d.

(** reward_pool.rs 297-327 *)
Definition plain_slash (ts : Z) (w : wpool) (m : wmining) (native weighted : Z) (date : option Z) : Prop :=
  weighted <= share_at ts m /\
  match date with
  | None => True
  | Some dt =>
      native <= weighted /\ day_start ts < day_start dt /\
      holds_at (day_start dt) (weighted - native) (wm_diffs m) /\
      holds_at (day_start dt) (weighted - native) (wp_diffs w)
  end.

(** reward_pool.rs 331-420 *)
Definition plain_extend (ts : Z) (w : wpool) (m : wmining) (op np : lockup) (start base extra : Z)
    (d : option wmining) : Prop :=
  op <> LNone /\ np <> LNone /\
  (op <> LFlex -> fits (expiry op start)) /\ fits (expiry np ts) /\
  counted op start ts base <= share_at ts m /\ plain_leave base d /\
  fits (p_total (wp w) - counted op start ts base + (base + extra) * weight_of np + for_delegate d extra) /\
  (unexpired op start ts = true ->
     holds_at (expiry op start) (base * (weight_of op - 1)) (wm_diffs m) /\
     fits (at_date (expiry np ts) (wp_diffs w) + (base + extra) * (weight_of np - 1))).

(** reward_pool.rs 164-198 *)
Definition plain_change (ts : Z) (w : wpool) (a : Z) (old new : option wmining) : Prop :=
  plain_leave a old /\ plain_join ts (wp_ci w) a new /\
  fits (p_total (wp w) - for_delegate old a + for_delegate new a).

(** reward_pool.rs 134-162 *)
Definition plain_distribute (ts : Z) (w : wpool) : Prop :=
  p_total (wp w) <> 0 /\
  (has_date (day_start ts) (wp_ci w) \/ due (day_start ts) (wp_diffs w) < p_total (wp w)).

(** Conditions on an instruction naming the pool [P] with vault [V]; account orders as in
    instruction.rs 13-169. *)
Definition plain (e : env) (P V : pubkey) (w : wpool) (ts : Z) (ms : list meta) (i : ix) (L : ledger) : Prop :=
  match i with
  | InitializePool _ _ => False  (* the pool is initialised already *)
  | InitializeMining owner =>
      exists mining payer,
        accounts_are ms [P; mining; payer; system_id] /\
        fst (find_mining e owner P) = mining /\ vacant L mining /\
        can_pay ms L payer (rent_min e 1776) /\ payer <> mining
  | FillVault r x =>
      exists auth source s,
        accounts_are ms [P; p_mint (wp w); V; auth; source; spl_token_id e] /\
        owner_of L (p_mint (wp w)) = spl_token_id e /\
        p_fill_auth (wp w) = auth /\ signed ms auth /\ auth <> P /\
        is_token e L source s /\ t_owner s = auth /\ t_mint s = p_mint (wp w) /\ r <= t_amount s /\
        r <> 0 /\ day_start ts <= day_start x /\ p_ends_at (wp w) <= day_start x /\
        fits (p_avail (wp w) + r) /\ (source <> V -> fits (balance L V + r))
  | DepositMining a p owner wallet =>
      exists mining auth dm m d,
        accounts_are ms [P; mining; auth; dm] /\
        stake_accounts e ms L P mining auth owner w m /\
        checked_delegate e L mining dm P wallet d /\ plain_deposit ts w a p d
  | WithdrawMining a owner wallet =>
      exists mining auth dm m d,
        accounts_are ms [P; mining; auth; dm] /\
        stake_accounts e ms L P mining auth owner w m /\
        checked_delegate e L mining dm P wallet d /\ plain_withdraw ts m a d
  | ExtendStake op np start base extra owner wallet =>
      exists mining auth dm m d,
        accounts_are ms [P; mining; auth; dm] /\
        stake_accounts e ms L P mining auth owner w m /\
        checked_delegate e L mining dm P wallet d /\ plain_extend ts w m op np start base extra d
  | ChangeDelegate a wallet =>
      exists mining auth owner old_dm new_dm m old new,
        accounts_are ms [P; mining; auth; owner; old_dm; new_dm] /\
        stake_accounts e ms L P mining auth owner w m /\ signed ms owner /\
        old_dm <> new_dm /\
        delegate_part e L mining old_dm old /\
        checked_delegate e L mining new_dm P wallet new /\ plain_change ts w a old new
  | Slash owner native weighted date =>
      exists auth mining m,
        accounts_are ms [auth; P; mining] /\
        stake_accounts e ms L P mining auth owner w m /\ plain_slash ts w m native weighted date
  | DecreaseRewards owner n =>
      exists auth mining m,
        accounts_are ms [auth; P; mining] /\
        stake_accounts e ms L P mining auth owner w m /\ n <= m_share (wm m)
  | DistributeRewards =>
      exists auth,
        accounts_are ms [P; auth] /\ p_distribute_auth (wp w) = auth /\ signed ms auth /\ plain_distribute ts w
  | Claim =>
      exists mining owner auth dest m t,
        accounts_are ms [P; p_mint (wp w); V; mining; owner; auth; dest; spl_token_id e] /\
        mining_in e L P mining m /\ owner_of L (p_mint (wp w)) = spl_token_id e /\
        m_owner (wm m) = owner /\ signed ms owner /\ p_deposit_auth (wp w) = auth /\ signed ms auth /\
        is_token e L dest t /\ t_owner t = owner /\
        (0 < tokens_at ts (wp_ci w) m -> t_mint t = p_mint (wp w) /\
           (dest <> V -> fits (t_amount t + tokens_at ts (wp_ci w) m)))
  | CloseMining =>
      exists mining owner target auth m,
        accounts_are ms [mining; owner; target; auth; P] /\
        is_mining e L mining m /\ owner_of L target = system_id /\
        m_owner (wm m) = owner /\ signed ms owner /\ p_deposit_auth (wp w) = auth /\ signed ms auth /\
        m_sfo (wm m) = 0 /\ tokens_at ts (wp_ci w) m = 0 /\
        fits (lamports_of L target + lamports_of L mining)
  end.

(** The caller addresses the pool [P] and its minings: the first account that stands for a
    pool is [P], a mining to be closed and an old delegate are minings of [P] (the program
    does not check these two), and there is room for another day of history. *)
Definition addressed (e : env) (P : pubkey) (w : wpool) (ms : list meta) (i : ix) (L : ledger) : Prop :=
  match i with
  | CloseMining => account_at ms 4 P /\ forall k m, account_at ms 0 k -> is_mining e L k m -> m_pool (wm m) = P
  | Slash _ _ _ _ | DecreaseRewards _ _ => account_at ms 1 P
  | ChangeDelegate _ _ => account_at ms 0 P /\
      forall k od x, account_at ms 1 k -> account_at ms 4 od -> od <> k -> is_mining e L od x -> m_pool (wm x) = P
  | DistributeRewards => account_at ms 0 P /\ Z.of_nat (length (wp_ci w)) < 1095
  | _ => account_at ms 0 P
  end.

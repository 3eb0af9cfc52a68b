(** What each error of the program means, from the documentation of the errors
    (programs/rewards/src/error.rs 13-94) and of the account lists (instruction.rs 13-169). *)
From stdpp Require Import gmap.
From Verif Require Import Base State Spec EffectSpec Ledger Program LedgerLemmas LedgerSpec HistoryThms SuccessSpec
  Clients ClientSpec.

(** What the account in a position has to be, by the account comments of instruction.rs. *)
Inductive want :=
| OwnedBy (program : pubkey)
| Signing
| Exactly (key : pubkey)
| Blank.
Definition wants (e : env) (i : ix) : list want :=
  let mine := OwnedBy (program_id e) in
  let token := OwnedBy (spl_token_id e) in
  match i with
  | InitializePool _ _ =>
      [mine; token; Blank; Signing; Signing; Exactly (rent_id e); Exactly (spl_token_id e); Exactly system_id]
  | FillVault _ _ => [mine; token; token; Signing; token; Exactly (spl_token_id e)]
  | InitializeMining _ => [mine; Blank; Signing; Exactly system_id]
  | DepositMining _ _ _ _ | WithdrawMining _ _ _ | ExtendStake _ _ _ _ _ _ _ => [mine; mine; Signing; mine]
  | Claim => [mine; token; token; mine; Signing; Signing; token; Exactly (spl_token_id e)]
  | DistributeRewards => [mine; Signing]
  | CloseMining => [mine; Signing; OwnedBy system_id; Signing; mine]
  | ChangeDelegate _ _ => [mine; mine; Signing; Signing; mine; mine]
  | Slash _ _ _ _ | DecreaseRewards _ _ => [Signing; mine; mine]
  end.
Definition meets (ms : list meta) (L : ledger) (w : want) (k : pubkey) : Prop :=
  match w with
  | OwnedBy o => owner_of L k = o
  | Signing => signed ms k
  | Exactly x => k = x
  | Blank => all_zero (data_of L k) = true
  end.
(** what is said about an account that is not as wanted *)
Definition complaint (w : want) : err :=
  match w with
  | OwnedBy _ => ECustom 0
  | Signing => EMissingSignature
  | Exactly _ => EInvalidArgument
  | Blank => EAlreadyInit
  end.

(** instructions that compute with amounts; those that bring a mining up to date *)
Definition computes (i : ix) : bool :=
  match i with InitializePool _ _ | InitializeMining _ | DecreaseRewards _ _ => false | _ => true end.
Definition refreshes (i : ix) : bool :=
  match i with FillVault _ _ | DistributeRewards => false | _ => computes i end.

(** [reason e ts ms L i x]: there is a reason for the instruction [i] to return the error [x] *)
Inductive reason (e : env) (ts : Z) (ms : list meta) (L : ledger) : ix -> err -> Prop :=
| why_owner i p k o : nth_error (wants e i) p = Some (OwnedBy o) -> account_at ms p k -> owner_of L k <> o ->
    reason e ts ms L i (ECustom 0)
| why_math i : computes i = true -> reason e ts ms L i (ECustom 1)
| why_no_deposits pool w : account_at ms 0 pool -> data_of L pool = DPool w -> p_total (wp w) = 0 ->
    reason e ts ms L DistributeRewards (ECustom 2)
| why_period o d : reason e ts ms L (DepositMining 0 LNone o d) (ECustom 3)
| why_old_period np s b a o d : reason e ts ms L (ExtendStake LNone np s b a o d) (ECustom 3)
| why_new_period op s o d : reason e ts ms L (ExtendStake op LNone s 0 0 o d) (ECustom 3)
| why_past r x : day_start x < day_start ts -> reason e ts ms L (FillVault r x) (ECustom 4)
| why_conversion i : refreshes i = true -> reason e ts ms L i (ECustom 5)
| why_unclaimed mining m pool w : account_at ms 0 mining -> data_of L mining = DMining m ->
    account_at ms 4 pool -> data_of L pool = DPool w -> tokens_at ts (wp_ci w) m <> 0 ->
    reason e ts ms L CloseMining (ECustom 6)
| why_zero x : reason e ts ms L (FillVault 0 x) (ECustom 7)
| why_delegated mining m : account_at ms 0 mining -> data_of L mining = DMining m -> m_sfo (wm m) <> 0 ->
    reason e ts ms L CloseMining (ECustom 8)
| why_no_bonus o n wt dt pool w mining m :
    account_at ms 1 pool -> data_of L pool = DPool w -> account_at ms 2 mining -> data_of L mining = DMining m ->
    ~ (day_start ts < day_start dt /\ has_date (day_start dt) (wm_diffs m) /\ has_date (day_start dt) (wp_diffs w)) ->
    reason e ts ms L (Slash o n wt (Some dt)) (ECustom 9)
| why_not_recorded op np s b a o d mining m :
    account_at ms 1 mining -> data_of L mining = DMining m ->
    unexpired op s ts = true -> ~ has_date (expiry op s) (wm_diffs m) ->
    reason e ts ms L (ExtendStake op np s b a o d) (ECustom 9)
| why_same a n k : account_at ms 4 k -> account_at ms 5 k -> reason e ts ms L (ChangeDelegate a n) (ECustom 10)
| why_initialized f d pool w : account_at ms 0 pool -> data_of L pool = DPool w -> p_type (wp w) = 1 ->
    reason e ts ms L (InitializePool f d) (ECustom 12)
| why_wrong_delegate i p wallet pool dm x k :
    delegate_of i = Some (p, wallet) -> account_at ms 0 pool -> account_at ms p dm ->
    data_of L dm = DMining x -> cpa_mining e wallet pool (m_bump (wm x)) = Some k -> k <> dm ->
    reason e ts ms L i (ECustom 13)
| why_no_address i p wallet pool dm x :
    delegate_of i = Some (p, wallet) -> account_at ms 0 pool -> account_at ms p dm ->
    data_of L dm = DMining x -> cpa_mining e wallet pool (m_bump (wm x)) = None ->
    reason e ts ms L i (ECustom 14)
| why_too_big o n mining m : account_at ms 2 mining -> data_of L mining = DMining m -> m_share (wm m) < n ->
    reason e ts ms L (DecreaseRewards o n) (ECustom 15)
(* errors of the Solana interface *)
| why_few i : (length ms < arity i)%nat -> reason e ts ms L i ENotEnoughKeys
| why_unsigned i p k : In p (must_sign i) -> account_at ms p k -> ~ signed ms k ->
    reason e ts ms L i EMissingSignature
| why_used_vault f d k : account_at ms 2 k -> all_zero (data_of L k) = false ->
    reason e ts ms L (InitializePool f d) EAlreadyInit
| why_used_mining o k : account_at ms 1 k -> all_zero (data_of L k) = false ->
    reason e ts ms L (InitializeMining o) EAlreadyInit
| why_readonly i p k : In p (may_change i) -> account_at ms p k -> ~ writable ms k ->
    reason e ts ms L i EReadonly
| why_privilege i p k : In p (may_change i) -> account_at ms p k -> ~ writable ms k ->
    reason e ts ms L i EPrivilege.

(** the errors this is about: all of the program's own, and those of the Solana interface
    above.  (The others: InvalidArgument for a wrong account, and what a callee or a panic
    returns.) *)
Definition explained (x : err) : bool :=
  match x with
  | ECustom _ | ENotEnoughKeys | EMissingSignature | EAlreadyInit | EReadonly | EPrivilege => true
  | _ => false
  end.

(** A call on the stake of [owner], with the delegate of [wallet] (deposit_mining.rs,
    withdraw_mining.rs, extend_stake.rs). *)
Definition stake_call (i : ix) : option (pubkey * pubkey) :=
  match i with
  | DepositMining _ _ o d | WithdrawMining _ o d | ExtendStake _ _ _ _ _ o d => Some (o, d)
  | _ => None
  end.
(** such a call with everything about its accounts in order *)
Definition proper_call (e : env) (ms : list meta) (L : ledger) (i : ix)
    (w : wpool) (m : wmining) (d : option wmining) : Prop :=
  exists pool mining auth dm owner wallet, stake_call i = Some (owner, wallet) /\
    accounts_are ms [pool; mining; auth; dm] /\
    stake_accounts e ms L pool mining auth owner w m /\ checked_delegate e L mining dm pool wallet d.
(** the same for a penalty (penalties/slash.rs, penalties/decrease_rewards.rs) *)
Definition proper_penalty (e : env) (ms : list meta) (L : ledger) (owner : pubkey) (w : wpool) (m : wmining) : Prop :=
  exists auth pool mining, accounts_are ms [auth; pool; mining] /\
    stake_accounts e ms L pool mining auth owner w m.
(** and for closing (close_mining.rs) *)
Definition proper_close (e : env) (ms : list meta) (L : ledger) (w : wpool) (m : wmining) : Prop :=
  exists mining owner target auth pool, accounts_are ms [mining; owner; target; auth; pool] /\
    is_pool e L pool w /\ is_mining e L mining m /\ owner_of L target = system_id /\
    signed ms owner /\ signed ms auth /\ p_deposit_auth (wp w) = auth /\ m_owner (wm m) = owner.
(** and for a claim (claim.rs) *)
Definition proper_claim (e : env) (ms : list meta) (L : ledger) (w : wpool) (m : wmining) : Prop :=
  exists pool mint vault mining owner auth dest t,
    accounts_are ms [pool; mint; vault; mining; owner; auth; dest; spl_token_id e] /\
    is_pool e L pool w /\ is_mining e L mining m /\
    owner_of L mint = spl_token_id e /\ owner_of L vault = spl_token_id e /\
    owner_of L dest = spl_token_id e /\ data_of L dest = DToken t /\ t_owner t = owner /\
    signed ms owner /\ signed ms auth /\
    p_deposit_auth (wp w) = auth /\ m_owner (wm m) = owner /\ m_pool (wm m) = pool /\
    cpa_vault e pool mint (p_bump (wp w)) = Some vault.

(** [returns e ts ms L i x]: cases in which the error is certain to be [x] *)
Inductive returns (e : env) (ts : Z) (ms : list meta) (L : ledger) : ix -> err -> Prop :=
(* the first account not as wanted decides *)
| ret_first i p w k : nth_error (wants e i) p = Some w -> account_at ms p k -> ~ meets ms L w k ->
    (forall q v, (q < p)%nat -> nth_error (wants e i) q = Some v -> exists k', account_at ms q k' /\ meets ms L v k') ->
    returns e ts ms L i (complaint w)
| ret_few i : (length ms < length (wants e i))%nat ->
    (forall q v, (q < length ms)%nat -> nth_error (wants e i) q = Some v -> exists k', account_at ms q k' /\ meets ms L v k') ->
    returns e ts ms L i ENotEnoughKeys
| ret_initialized f d pool mint vault payer auth w :
    accounts_are ms [pool; mint; vault; payer; auth; rent_id e; spl_token_id e; system_id] ->
    is_pool e L pool w -> owner_of L mint = spl_token_id e -> all_zero (data_of L vault) = true ->
    signed ms payer -> signed ms auth -> p_type (wp w) = 1 ->
    returns e ts ms L (InitializePool f d) (ECustom 12)
| ret_zero x pool mint vault auth source :
    accounts_are ms [pool; mint; vault; auth; source; spl_token_id e] ->
    owner_of L pool = program_id e -> owner_of L mint = spl_token_id e -> owner_of L vault = spl_token_id e ->
    owner_of L source = spl_token_id e -> signed ms auth ->
    returns e ts ms L (FillVault 0 x) (ECustom 7)
| ret_past r x pool mint vault auth source w :
    accounts_are ms [pool; mint; vault; auth; source; spl_token_id e] ->
    is_pool e L pool w -> owner_of L mint = spl_token_id e -> owner_of L vault = spl_token_id e ->
    owner_of L source = spl_token_id e -> signed ms auth ->
    p_fill_auth (wp w) = auth -> cpa_vault e pool mint (p_bump (wp w)) = Some vault ->
    r <> 0 -> day_start x < day_start ts ->
    returns e ts ms L (FillVault r x) (ECustom 4)
| ret_earlier r x pool mint vault auth source w :
    accounts_are ms [pool; mint; vault; auth; source; spl_token_id e] ->
    is_pool e L pool w -> owner_of L mint = spl_token_id e -> owner_of L vault = spl_token_id e ->
    owner_of L source = spl_token_id e -> signed ms auth ->
    p_fill_auth (wp w) = auth -> cpa_vault e pool mint (p_bump (wp w)) = Some vault ->
    r <> 0 -> day_start ts <= day_start x -> day_start x < p_ends_at (wp w) ->
    returns e ts ms L (FillVault r x) (ECustom 1)
| ret_no_deposits pool auth w :
    accounts_are ms [pool; auth] -> is_pool e L pool w -> signed ms auth -> p_distribute_auth (wp w) = auth ->
    p_total (wp w) = 0 ->
    returns e ts ms L DistributeRewards (ECustom 2)
| ret_all_expired pool auth w :
    accounts_are ms [pool; auth] -> is_pool e L pool w -> signed ms auth -> p_distribute_auth (wp w) = auth ->
    p_total (wp w) <> 0 -> p_total (wp w) < due (day_start ts) (wp_diffs w) ->
    returns e ts ms L DistributeRewards (ECustom 1)
| ret_period o wt w m d :
    proper_call e ms L (DepositMining 0 LNone o wt) w m d -> can_refresh ts (wp_ci w) m ->
    returns e ts ms L (DepositMining 0 LNone o wt) (ECustom 3)
| ret_no_period a o wt w m d :
    proper_call e ms L (DepositMining a LNone o wt) w m d -> can_refresh ts (wp_ci w) m -> 0 < a ->
    returns e ts ms L (DepositMining a LNone o wt) (ECustom 1)
| ret_old_period np s b a o wt w m d :
    proper_call e ms L (ExtendStake LNone np s b a o wt) w m d -> can_refresh ts (wp_ci w) m ->
    returns e ts ms L (ExtendStake LNone np s b a o wt) (ECustom 3)
| ret_not_recorded op np s b a o wt w m d :
    proper_call e ms L (ExtendStake op np s b a o wt) w m d -> can_refresh ts (wp_ci w) m ->
    op <> LNone -> fits (expiry op s) -> unexpired op s ts = true -> fits (b * weight_of op) ->
    ~ has_date (expiry op s) (wm_diffs m) ->
    returns e ts ms L (ExtendStake op np s b a o wt) (ECustom 9)
| ret_too_much a o wt w m d :
    proper_call e ms L (WithdrawMining a o wt) w m d -> can_refresh ts (wp_ci w) m ->
    p_total (wp w) < a \/ share_at ts m < a ->
    returns e ts ms L (WithdrawMining a o wt) (ECustom 1)
| ret_no_bonus o n wt dt w m :
    proper_penalty e ms L o w m -> can_withdraw ts w m wt None -> n <= wt ->
    ~ has_date (day_start dt) (wm_diffs m) \/ day_start dt <= day_start ts \/
      holds_at (day_start dt) (wt - n) (wm_diffs m) /\ ~ has_date (day_start dt) (wp_diffs w) ->
    returns e ts ms L (Slash o n wt (Some dt)) (ECustom 9)
| ret_too_big o n w m :
    proper_penalty e ms L o w m -> m_share (wm m) < n ->
    returns e ts ms L (DecreaseRewards o n) (ECustom 15)
| ret_delegated w m :
    proper_close e ms L w m -> can_refresh ts (wp_ci w) m -> m_sfo (wm m) <> 0 ->
    returns e ts ms L CloseMining (ECustom 8)
| ret_unclaimed w m :
    proper_close e ms L w m -> can_refresh ts (wp_ci w) m -> m_sfo (wm m) = 0 -> tokens_at ts (wp_ci w) m <> 0 ->
    returns e ts ms L CloseMining (ECustom 6)
| ret_same a wt pool mining auth owner dm :
    accounts_are ms [pool; mining; auth; owner; dm; dm] ->
    owner_of L pool = program_id e -> owner_of L mining = program_id e -> owner_of L dm = program_id e ->
    signed ms auth -> signed ms owner ->
    returns e ts ms L (ChangeDelegate a wt) (ECustom 10)
| ret_wrong_delegate i pool mining auth dm owner wallet w m x k :
    stake_call i = Some (owner, wallet) -> accounts_are ms [pool; mining; auth; dm] ->
    stake_accounts e ms L pool mining auth owner w m -> is_mining e L dm x -> dm <> mining ->
    cpa_mining e wallet pool (m_bump (wm x)) = Some k -> k <> dm ->
    returns e ts ms L i (ECustom 13)
| ret_no_address i pool mining auth dm owner wallet w m x :
    stake_call i = Some (owner, wallet) -> accounts_are ms [pool; mining; auth; dm] ->
    stake_accounts e ms L pool mining auth owner w m -> is_mining e L dm x -> dm <> mining ->
    cpa_mining e wallet pool (m_bump (wm x)) = None ->
    returns e ts ms L i (ECustom 14)
| ret_wrong_new_delegate a pool mining auth owner od nd wallet w m x k :
    accounts_are ms [pool; mining; auth; owner; od; nd] ->
    stake_accounts e ms L pool mining auth owner w m -> signed ms owner ->
    owner_of L od = program_id e -> is_mining e L nd x -> od <> nd -> nd <> mining ->
    cpa_mining e wallet pool (m_bump (wm x)) = Some k -> k <> nd ->
    returns e ts ms L (ChangeDelegate a wallet) (ECustom 13)
(* data too short to be cut into its parts: no error code, the program stops *)
| ret_short_mining i pool mining auth dm owner wallet n :
    stake_call i = Some (owner, wallet) -> accounts_are ms [pool; mining; auth; dm] ->
    owner_of L pool = program_id e -> owner_of L mining = program_id e -> owner_of L dm = program_id e ->
    signed ms auth -> mining <> pool -> data_of L mining = DZeros n -> n < 1776 ->
    returns e ts ms L i EPanic
| ret_short_pool pool auth n :
    accounts_are ms [pool; auth] -> owner_of L pool = program_id e -> signed ms auth ->
    (exists m, data_of L pool = DMining m) \/ data_of L pool = DZeros n /\ n < 55720 ->
    returns e ts ms L DistributeRewards EPanic
| ret_conversion w m :
    proper_claim e ms L w m -> wm_diffs m = [] -> fits (m_share (wm m) + m_sfo (wm m)) ->
    m_index (wm m) <= visible ts (wp_ci w) ->
    (visible ts (wp_ci w) - m_index (wm m)) * (m_share (wm m) + m_sfo (wm m)) < 340282366920938463463374607431768211456 ->
    18446744073709551616 <= (visible ts (wp_ci w) - m_index (wm m)) * (m_share (wm m) + m_sfo (wm m)) / 10000000000000000 ->
    returns e ts ms L Claim (ECustom 5).

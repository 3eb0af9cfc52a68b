(** What every instruction does, written out in full (claim C68): the answer and the contents of
    every account afterwards, in terms of the specification vocabulary only.  From the documented
    effects of the API (programs/rewards/src/instruction.rs 13-169); the amounts are those of
    claims C10, C14 and C24-C33. *)
From stdpp Require Import gmap.
From Verif Require Import Base State Spec EffectSpec Ledger Program LedgerLemmas LedgerSpec CodecLemmas History HistoryThms SuccessSpec.

(** an account with other data; with another balance *)
Definition holding (a : account) (d : adata) : account := Account (a_lamports a) (a_owner a) d.
Definition having (a : account) (x : Z) : account := Account x (a_owner a) (a_data a).

(** the new contents listed for an account *)
Fixpoint listed (q : pubkey) (l : list (pubkey * account)) : option account :=
  match l with
  | [] => None
  | (k, a) :: r => if k =? q then Some a else listed q r
  end.
(** [L'] is [L] with the listed accounts replaced, and no other *)
Definition becomes (L L' : ledger) (l : list (pubkey * account)) : Prop :=
  forall q, acc L' q = match listed q l with Some a => a | None => acc L q end.

Definition pool_now (L : ledger) (k : pubkey) (w : wpool) : pubkey * account := (k, holding (acc L k) (DPool w)).
Definition mining_now (L : ledger) (k : pubkey) (m : wmining) : pubkey * account := (k, holding (acc L k) (DMining m)).
Definition delegate_now (L : ledger) (k : pubkey) (d : option wmining) : list (pubkey * account) :=
  match d with None => [] | Some x => [mining_now L k x] end.
(** [x] tokens move between two token accounts *)
Definition tokens_now (L : ledger) (src dst : pubkey) (s d : token) (x : Z) : list (pubkey * account) :=
  if src =? dst then []
  else [(src, holding (acc L src) (DToken (Token (t_mint s) (t_owner s) (t_amount s - x))));
        (dst, holding (acc L dst) (DToken (Token (t_mint d) (t_owner d) (t_amount d + x))))].

(** a delegate taking part is credited at its stake with [x] more delegated to it *)
Definition delegated (ts : Z) (ci : sched) (x : Z) (d d' : option wmining) : Prop :=
  match d, d' with
  | None, None => True
  | Some y, Some y' => refreshed ts ci (with_delegated y (m_sfo (wm y) + x)) y'
  | _, _ => False
  end.
(** an extended stake leaves its delegate, which is credited without it, and comes back with
    [x] more *)
Definition redelegated (ts : Z) (ci : sched) (base x : Z) (d d' : option wmining) : Prop :=
  match d, d' with
  | None, None => True
  | Some y, Some y' =>
      exists z, refreshed ts ci (with_delegated y (m_sfo (wm y) - base)) z /\
                y' = with_delegated z (m_sfo (wm y) + x)
  | _, _ => False
  end.

Definition deposited (ts : Z) (w : wpool) (m : wmining) (a : Z) (p : lockup) (d : option wmining)
    (w' : wpool) (m' : wmining) (d' : option wmining) : Prop :=
  (exists m1, refreshed ts (wp_ci w) m m1 /\ only_stake m1 m' /\
     m_share (wm m') = m_share (wm m1) + a * weight_of p /\
     scheduled 50 (expiry p ts) (a * (weight_of p - 1)) (wm_diffs m1) (wm_diffs m') /\ ascending (wm_diffs m')) /\
  only_total w w' /\
  p_total (wp w') = p_total (wp w) + a * weight_of p + for_delegate d a /\
  scheduled 365 (expiry p ts) (a * (weight_of p - 1)) (wp_diffs w) (wp_diffs w') /\ ascending (wp_diffs w') /\
  delegated ts (wp_ci w) a d d'.

Definition withdrawn (ts : Z) (w : wpool) (m : wmining) (a : Z) (d : option wmining)
    (w' : wpool) (m' : wmining) (d' : option wmining) : Prop :=
  (exists m1, refreshed ts (wp_ci w) m m1 /\ only_stake m1 m' /\
     m_share (wm m') = m_share (wm m1) - a /\ wm_diffs m' = wm_diffs m1) /\
  only_total w w' /\
  p_total (wp w') = p_total (wp w) - a - due (day_start ts) (wp_diffs w) - for_delegate d a /\
  wp_diffs w' = after (day_start ts) (wp_diffs w) /\
  delegated ts (wp_ci w) (- a) d d'.

Definition extended (ts : Z) (w : wpool) (m : wmining) (op np : lockup) (start base extra : Z)
    (d : option wmining) (w' : wpool) (m' : wmining) (d' : option wmining) : Prop :=
  (exists m1 t, refreshed ts (wp_ci w) m m1 /\ only_stake m1 m' /\
     m_share (wm m') = m_share (wm m1) - counted op start ts base + (base + extra) * weight_of np /\
     (if unexpired op start ts then lowered (expiry op start) (base * (weight_of op - 1)) (wm_diffs m1) t
      else t = wm_diffs m1) /\
     scheduled 50 (expiry np ts) ((base + extra) * (weight_of np - 1)) t (wm_diffs m') /\ ascending (wm_diffs m')) /\
  only_total w w' /\
  p_total (wp w') = p_total (wp w) - counted op start ts base + (base + extra) * weight_of np + for_delegate d extra /\
  scheduled 365 (expiry np ts) ((base + extra) * (weight_of np - 1)) (wp_diffs w) (wp_diffs w') /\
  ascending (wp_diffs w') /\
  redelegated ts (wp_ci w) base extra d d'.

Definition moved (ts : Z) (w : wpool) (m : wmining) (a : Z) (old new : option wmining)
    (w' : wpool) (m' : wmining) (old' new' : option wmining) : Prop :=
  refreshed ts (wp_ci w) m m' /\ only_total w w' /\ wp_diffs w' = wp_diffs w /\
  p_total (wp w') = p_total (wp w) - for_delegate old a + for_delegate new a /\
  delegated ts (wp_ci w) (- a) old old' /\ delegated ts (wp_ci w) a new new'.

Definition slashed (ts : Z) (w : wpool) (m : wmining) (native weighted : Z) (date : option Z)
    (w' : wpool) (m' : wmining) : Prop :=
  exists m1, refreshed ts (wp_ci w) m m1 /\ only_stake m1 m' /\ only_total w w' /\
    m_share (wm m') = m_share (wm m1) - weighted /\
    p_total (wp w') = p_total (wp w) - weighted - due (day_start ts) (wp_diffs w) /\
    match date with
    | None => wm_diffs m' = wm_diffs m1 /\ wp_diffs w' = after (day_start ts) (wp_diffs w)
    | Some x =>
        lowered (day_start x) (weighted - native) (wm_diffs m1) (wm_diffs m') /\
        lowered (day_start x) (weighted - native) (after (day_start ts) (wp_diffs w)) (wp_diffs w')
    end.

Definition decreased (m : wmining) (n : Z) (m' : wmining) : Prop :=
  only_stake m m' /\ m_share (wm m') = m_share (wm m) - n /\
  map fst (wm_diffs m') = map fst (wm_diffs m) /\
  forall d, total (after d (wm_diffs m')) = Z.max 0 (total (after d (wm_diffs m)) - n).

Definition distributed (ts : Z) (w w' : wpool) : Prop :=
  let part := daily_part (p_avail (wp w)) (p_ends_at (wp w)) ts in
  only_distribution w w' /\
  p_total (wp w') = p_total (wp w) - due (day_start ts) (wp_diffs w) /\
  wp_diffs w' = after (day_start ts) (wp_diffs w) /\
  (has_date (day_start ts) (wp_ci w) ->
     wp_ci w' = wp_ci w /\ p_index (wp w') = p_index (wp w) /\ p_avail (wp w') = p_avail (wp w)) /\
  (~ has_date (day_start ts) (wp_ci w) ->
     p_index (wp w') = p_index (wp w) + 10000000000000000 * part / p_total (wp w') /\
     p_avail (wp w') = p_avail (wp w) - part /\
     wp_ci w' = if Z.of_nat (length (wp_ci w)) <? 1095 then wp_ci w ++ [(day_start ts, p_index (wp w'))]
                else wp_ci w).

(** a pool with [x] more to distribute, until the day of [date] *)
Definition filled (w : wpool) (x date : Z) : wpool :=
  WPool (Pool (p_deposit_auth (wp w)) (p_distribute_auth (wp w)) (p_fill_auth (wp w)) (p_mint (wp w))
           (p_index (wp w)) (p_total (wp w)) (day_start date) (p_avail (wp w) + x) (p_bump (wp w)) (p_type (wp w)))
        (wp_diffs w) (wp_ci w).
(** a mining with nothing left to claim *)
Definition emptied (m : wmining) : wmining :=
  WMining (Mining (m_pool (wm m)) (m_owner (wm m)) (m_mint (wm m)) (m_index (wm m)) (m_share (wm m)) 0
             (m_sfo (wm m)) (m_bump (wm m)) (m_type (wm m))) (wm_diffs m).

(** The instruction does this. *)
Definition effect (e : env) (ts : Z) (ms : list meta) (i : ix) (L L' : ledger) (r : option Z) : Prop :=
  match i with
  | InitializePool f d =>
      exists pool mint vault payer auth bump,
        accounts_are ms [pool; mint; vault; payer; auth] /\ find_vault e pool mint = (vault, bump) /\ r = None /\
        becomes L L'
          [pool_now L pool (WPool (Pool auth d f mint 0 0 0 0 bump 1) [] []);
           (vault, Account (rent_min e 165) (spl_token_id e) (DToken (Token mint auth 0)));
           (payer, having (acc L payer) (lamports_of L payer - rent_min e 165))]
  | InitializeMining owner =>
      exists pool mining payer bump,
        accounts_are ms [pool; mining; payer] /\ find_mining e owner pool = (mining, bump) /\ r = None /\
        becomes L L'
          [(mining, Account (rent_min e 1776) (program_id e) (DMining (WMining (Mining pool owner 0 0 0 0 0 bump 2) [])));
           (payer, having (acc L payer) (lamports_of L payer - rent_min e 1776))]
  | FillVault x date =>
      exists pool mint vault auth source w s v,
        accounts_are ms [pool; mint; vault; auth; source] /\ is_pool e L pool w /\
        data_of L source = DToken s /\ data_of L vault = DToken v /\ r = None /\
        becomes L L' (pool_now L pool (filled w x date) :: tokens_now L source vault s v x)
  | DepositMining a p _ _ =>
      exists pool mining auth dm w m d w' m' d',
        accounts_are ms [pool; mining; auth; dm] /\ is_pool e L pool w /\ is_mining e L mining m /\
        delegate_part e L mining dm d /\ deposited ts w m a p d w' m' d' /\ r = None /\
        becomes L L' (pool_now L pool w' :: mining_now L mining m' :: delegate_now L dm d')
  | WithdrawMining a _ _ =>
      exists pool mining auth dm w m d w' m' d',
        accounts_are ms [pool; mining; auth; dm] /\ is_pool e L pool w /\ is_mining e L mining m /\
        delegate_part e L mining dm d /\ withdrawn ts w m a d w' m' d' /\ r = None /\
        becomes L L' (pool_now L pool w' :: mining_now L mining m' :: delegate_now L dm d')
  | ExtendStake op np start base extra _ _ =>
      exists pool mining auth dm w m d w' m' d',
        accounts_are ms [pool; mining; auth; dm] /\ is_pool e L pool w /\ is_mining e L mining m /\
        delegate_part e L mining dm d /\ extended ts w m op np start base extra d w' m' d' /\ r = None /\
        becomes L L' (pool_now L pool w' :: mining_now L mining m' :: delegate_now L dm d')
  | ChangeDelegate a _ =>
      exists pool mining auth owner old_dm new_dm w m old new w' m' old' new',
        accounts_are ms [pool; mining; auth; owner; old_dm; new_dm] /\ is_pool e L pool w /\ is_mining e L mining m /\
        delegate_part e L mining old_dm old /\ delegate_part e L mining new_dm new /\
        moved ts w m a old new w' m' old' new' /\ r = None /\
        becomes L L' (pool_now L pool w' :: mining_now L mining m' ::
                      delegate_now L old_dm old' ++ delegate_now L new_dm new')
  | Slash _ native weighted date =>
      exists auth pool mining w m w' m',
        accounts_are ms [auth; pool; mining] /\ is_pool e L pool w /\ is_mining e L mining m /\
        slashed ts w m native weighted date w' m' /\ r = None /\
        becomes L L' [pool_now L pool w'; mining_now L mining m']
  | DecreaseRewards _ n =>
      exists auth pool mining m m',
        accounts_are ms [auth; pool; mining] /\ is_mining e L mining m /\
        decreased m n m' /\ r = None /\ becomes L L' [mining_now L mining m']
  | DistributeRewards =>
      exists pool auth w w',
        accounts_are ms [pool; auth] /\ is_pool e L pool w /\ distributed ts w w' /\ r = None /\
        becomes L L' [pool_now L pool w']
  | Claim =>
      exists pool mint vault mining owner auth dest w m m1,
        accounts_are ms [pool; mint; vault; mining; owner; auth; dest] /\
        is_pool e L pool w /\ is_mining e L mining m /\ refreshed ts (wp_ci w) m m1 /\
        r = Some (m_unclaimed (wm m1)) /\
        (m_unclaimed (wm m1) = 0 /\ becomes L L' [mining_now L mining (emptied m1)] \/
         0 < m_unclaimed (wm m1) /\ exists v t,
           data_of L vault = DToken v /\ data_of L dest = DToken t /\
           becomes L L' (mining_now L mining (emptied m1) :: tokens_now L vault dest v t (m_unclaimed (wm m1))))
  | CloseMining =>
      exists mining owner target,
        accounts_are ms [mining; owner; target] /\ r = None /\
        becomes L L'
          [(mining, Account 0 (owner_of L mining) (DMining (WMining (Mining 0 0 0 0 0 0 0 0 0) [])));
           (target, having (acc L target) (lamports_of L target + lamports_of L mining))]
  end.

(** Histories described without the program: instructions are allowed calls with the described
    effect, in which only writable accounts are handed on or changed. *)
Inductive described (e : env) : Z -> ledger -> Prop :=
| de_start L : genesis e L -> described e 0 L
| de_outside now ts L L' :
    described e now L -> now <= ts -> is_u64 ts -> external e L L' -> described e ts L'
| de_call now ts ms i L L' r :
    described e now L -> now <= ts -> is_u64 ts -> ix_in_range i ->
    allowed e ts ms i L -> effect e ts ms i L L' r ->
    (forall k, hands_on e ts ms i L k -> writable ms k) ->
    (forall k, In k (map mt_key ms) -> acc L' k <> acc L k -> writable ms k) ->
    described e ts L'.

(** Minings that the program refuses to work on: the vocabulary of C78. *)
From stdpp Require Import gmap.
From Verif Require Import Base State Spec EffectSpec Ledger Program LedgerLemmas LedgerSpec HistoryThms CodecLemmas Clients History.

(** where an instruction lists the minings that it brings up to date with the history of its
    pool (mining.rs 56-77): everywhere but in a DecreaseRewards *)
Definition worked_on (i : ix) : list nat :=
  match i with
  | DepositMining _ _ _ _ | WithdrawMining _ _ _ | ExtendStake _ _ _ _ _ _ _ => [1; 3]
  | Claim => [3]
  | CloseMining => [0]
  | ChangeDelegate _ _ => [1; 4; 5]
  | Slash _ _ _ _ => [2]
  | InitializePool _ _ | FillVault _ _ | InitializeMining _ | DistributeRewards | DecreaseRewards _ _ => []
  end%nat.

(** the event works on [k] under the pool [P] *)
Definition works_on (P k : pubkey) (ev : event) : Prop :=
  match ev with
  | EvIx _ ms i => account_at ms (pool_position i) P /\ exists n, In n (worked_on i) /\ account_at ms n k
  | EvExt _ => False
  end.

(** the mining's index is beyond everything that its pool has ever distributed *)
Definition ahead (w : wpool) (m : wmining) : Prop := p_index (wp w) < m_index (wm m).

(** the mining has an expiry [d] to work off, but its index is beyond what its pool had
    distributed before that day (mining.rs 175-233) *)
Definition stuck_at (d : Z) (w : wpool) (m : wmining) : Prop :=
  has_date d (wm_diffs m) /\ visible d (wp_ci w) < m_index (wm m).

(** nothing of the mining differs but a lower weighted stake, taken from the same dates *)
Definition only_lowered (m m' : wmining) : Prop :=
  m_owner (wm m') = m_owner (wm m) /\ m_pool (wm m') = m_pool (wm m) /\ m_type (wm m') = m_type (wm m) /\
  m_index (wm m') = m_index (wm m) /\ m_unclaimed (wm m') = m_unclaimed (wm m) /\
  m_sfo (wm m') = m_sfo (wm m) /\ map fst (wm_diffs m') = map fst (wm_diffs m) /\
  m_share (wm m') <= m_share (wm m).

(** the call of a stranger: ChangeDelegate of nothing, in the pool [Q] and for the mining [j],
    both the stranger's, with [k] as the old delegate.  Only the authority of [Q] and the owner
    of [j] sign. *)
Definition strike_on (Q j auth owner k : pubkey) : list meta :=
  [Meta Q false true; Meta j false true; Meta auth true false; Meta owner true false;
   Meta k false true; Meta j false true].

(** What a stranger [A] brings along: a wallet able to pay two rents, a zeroed pool account
    [Q], any mint, [X] tokens of it in a token account [S] of theirs, and the derived vault [V]
    and mining [j], which do not exist yet. *)
Record means (e : env) (L : ledger) (A Q mint V j S : pubkey) (X : Z) : Prop := {
  me_wallet : owner_of L A = system_id /\ data_len (data_of L A) = 0;
  me_rent : rent_min e 165 + rent_min e 1776 <= lamports_of L A;
  me_pool : is_pool e L Q (WPool (Pool 0 0 0 0 0 0 0 0 0 0) [] []);
  me_mint : owner_of L mint = spl_token_id e /\ data_of L mint = DMint;
  me_vault : fst (find_vault e Q mint) = V /\ lamports_of L V = 0 /\ owner_of L V = system_id /\ data_of L V = DEmpty;
  me_mining : fst (find_mining e A Q) = j /\ lamports_of L j = 0 /\ owner_of L j = system_id /\ data_of L j = DEmpty;
  me_tokens : owner_of L S = spl_token_id e /\
              exists t, data_of L S = DToken t /\ t_owner t = A /\ t_mint t = mint /\ X <= t_amount t;
  me_apart : A <> V /\ A <> j;
  me_key : is_key A }.

(** the six calls: a pool, a mining in it, one token staked, [X] tokens filled in for today,
    distributed, and the strike *)
Definition six_calls (e : env) (ts : Z) (A Q mint V j S : pubkey) (X : Z) (k : pubkey) : list event :=
  let ev (c : list meta * ix) := EvIx ts (fst c) (snd c) in
  [ev (b_initialize_pool e Q mint V A A A A); ev (b_initialize_mining Q j A A);
   ev (b_deposit Q j A j 1 LFlex A A); ev (b_fill_vault e Q mint V A S X ts);
   ev (b_distribute Q A); EvIx ts (strike_on Q j A A k) (ChangeDelegate 0 A)].

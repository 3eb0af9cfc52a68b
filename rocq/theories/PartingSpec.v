(** Claim C97: stakers leave one after the other, delegates after those who delegate to them. *)
From stdpp Require Import gmap.
From Verif Require Import Base State Spec EffectSpec Core Ledger Program Clients LedgerLemmas LedgerSpec CodecLemmas History HistoryThms LedgerView SuccessSpec EffectThms WindUpSpec.

(** somebody else who takes a delegation back from [x] *)
Definition from_delegate (x : pubkey) (d : departure) : bool := (d_dm d =? x) && negb (d_mining d =? x).
(** what those in [l] take back from [x], and what the first of them does *)
Definition back (x : pubkey) (l : list departure) : Z := zsum (map (fun d => if from_delegate x d then d_stake d else 0) l).
Definition first_back (x : pubkey) (l : list departure) : Z :=
  match List.find (from_delegate x) l with Some d => d_stake d | None => 0 end.

(** What it takes to leave, among those in [l], after those in [before]: these have taken back all that is
    delegated to the staker, the stake to withdraw carries no bonus, a delegate is still there and has been
    delegated what is taken back, and the accounts for the rewards and the lamports are fit for them. *)
Definition may_part (e : env) (L : ledger) (P V : pubkey) (w : wpool) (l before : list departure) (d : departure) : Prop :=
  exists m, mining_in e L P (d_mining d) m /\ m_owner (wm m) = d_owner d /\
    d_owner d <> system_id /\ is_key (d_owner d) /\ is_key (d_delegate d) /\
    payable e L w V m (d_to d) /\ m_sfo (wm m) = back (d_mining d) before /\ 0 <= d_stake d <= unlocked_stake m /\
    (d_dm d = d_mining d \/
     d_dm d <> d_mining d /\ ~ In (d_dm d) (map d_mining before) /\ exists mx, mining_in e L P (d_dm d) mx /\ d_delegate d = m_owner (wm mx) /\
       back (d_dm d) l <= m_sfo (wm mx)) /\
    owner_of L (d_target d) = system_id /\ lamports_of L (d_target d) + refund L (d_target d) l < U64.

(** What the staker has got: the rewards due at [ts], reckoned without the delegation that was first taken back;
    the mining account is empty. *)
Definition has_parted (e : env) (ts : Z) (P : pubkey) (w : wpool) (L L' : ledger) (l : list departure) (d : departure) (r : Z) : Prop :=
  exists m, mining_in e L P (d_mining d) m /\
    r = tokens_at ts (wp_ci w) (with_delegated m (m_sfo (wm m) - first_back (d_mining d) l)) /\
    balance L' (d_to d) = balance L (d_to d) + r /\
    acc L' (d_mining d) = Account 0 (program_id e) (DMining zero_wmining).

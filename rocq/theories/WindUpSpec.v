(** Claim C95: stakers leave one after the other. *)
From stdpp Require Import gmap.
From Verif Require Import Base State Spec EffectSpec Core Ledger Program Clients LedgerLemmas LedgerSpec CodecLemmas History HistoryThms LedgerView SuccessSpec EffectThms.

(** Somebody who leaves: the mining and its owner, the token account for the rewards, the mining and
    the wallet of the delegate (both the staker's own if there is none), the stake to withdraw, and
    the account that gets the lamports. *)
Record departure := Departure {
  d_mining : pubkey; d_owner : pubkey; d_to : pubkey;
  d_dm : pubkey; d_delegate : pubkey; d_stake : Z; d_target : pubkey }.

(** They leave one after the other at one time, each by the calls the crate builds: claim
    (instruction.rs 323-345), withdraw_mining (293-319) and close_mining (406-423); the amounts
    returned by the claims. *)
Fixpoint departures (e : env) (ts : Z) (P mint V auth : pubkey) (l : list departure) (L : ledger)
  : res (ledger * list Z) :=
  match l with
  | [] => Ok (L, [])
  | d :: r =>
      let? (L1, x) := exec e ts (fst (b_claim e P mint V (d_mining d) (d_owner d) auth (d_to d))) Claim L in
      let? (L2, _) := exec e ts (fst (b_withdraw P (d_mining d) auth (d_dm d) (d_stake d) (d_owner d) (d_delegate d)))
        (WithdrawMining (d_stake d) (d_owner d) (d_delegate d)) L1 in
      let? (L3, _) := exec e ts (fst (b_close (d_mining d) (d_owner d) (d_target d) auth P)) CloseMining L2 in
      let? (L4, xs) := departures e ts P mint V auth r L3 in
      Ok (L4, match x with Some a => a :: xs | None => xs end)
  end.

(** what those who leave take back from the delegate [x] *)
Definition taken (x : pubkey) (l : list departure) : Z :=
  zsum (map (fun d => if d_dm d =? x then d_stake d else 0) l).
(** the lamports that go to [t] *)
Definition refund (L : ledger) (t : pubkey) (l : list departure) : Z :=
  zsum (map (fun d => if d_target d =? t then lamports_of L (d_mining d) else 0) l).
(** by how much the pool's weighted stake falls *)
Definition leaving (l : list departure) : Z :=
  zsum (map (fun d => d_stake d + if_other (d_dm d) (d_mining d) (d_stake d)) l).

(** What it takes to leave, among those in [l]: nobody delegates to the staker, the stake to
    withdraw carries no bonus, a delegate stays and has been delegated what is taken back, and the
    accounts for the rewards and the lamports are fit for them. *)
Definition may_leave (e : env) (L : ledger) (P V : pubkey) (w : wpool) (l : list departure) (d : departure) : Prop :=
  exists m, mining_in e L P (d_mining d) m /\ m_owner (wm m) = d_owner d /\
    d_owner d <> system_id /\ is_key (d_owner d) /\ is_key (d_delegate d) /\
    payable e L w V m (d_to d) /\ m_sfo (wm m) = 0 /\ 0 <= d_stake d <= unlocked_stake m /\
    (d_dm d = d_mining d \/
     ~ In (d_dm d) (map d_mining l) /\ exists mx, mining_in e L P (d_dm d) mx /\ d_delegate d = m_owner (wm mx) /\
       taken (d_dm d) l <= m_sfo (wm mx)) /\
    owner_of L (d_target d) = system_id /\ lamports_of L (d_target d) + refund L (d_target d) l < U64.

(** What the staker has got: [r], which is all the rewards due at [ts]; the mining account is empty. *)
Definition has_left (e : env) (ts : Z) (P : pubkey) (w : wpool) (L L' : ledger) (d : departure) (r : Z) : Prop :=
  exists m, mining_in e L P (d_mining d) m /\ r = tokens_at ts (wp_ci w) m /\
    balance L' (d_to d) = balance L (d_to d) + r /\
    acc L' (d_mining d) = Account 0 (program_id e) (DMining zero_wmining).

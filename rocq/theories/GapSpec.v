(** Claim C77: how far a pool's total share is from what its minings count for, and how much
    every instruction moves the one away from the other.  In the vocabulary of Spec.v and
    EffectSpec.v; from the documented effects (programs/rewards/src/instruction.rs 13-169). *)
From stdpp Require Import gmap.
From Verif Require Import Base State Spec EffectSpec Ledger Program LedgerLemmas LedgerSpec CodecLemmas History LedgerView.

(** the total share the pool has on day [d], when what expires until then is gone *)
Definition total_on (w : wpool) (d : Z) : Z := p_total (wp w) - due d (wp_diffs w).
(** what the listed minings count for on that day *)
Definition count_on (l : list (pubkey * wmining)) (d : Z) : Z := zsum (map (fun x => eff (snd x) d) l).
(** what the pool counts beyond its minings *)
Definition gap (w : wpool) (l : list (pubkey * wmining)) (d : Z) : Z := total_on w d - count_on l d.

(** a drop of [x] on [date] that finds no place among [cap] dates of [t]: what is missing on day [d] *)
Definition lost (cap date x : Z) (t : sched) (d : Z) : Z :=
  if existsb (fun kv => fst kv =? date) t || (Z.of_nat (length t) <? cap) then 0
  else if date <=? d then x else 0.

(** the account is a mining of [P] *)
Definition of_pool (L : ledger) (P k : pubkey) : bool :=
  match data_of L k with DMining m => m_pool (wm m) =? P | _ => false end.

(** stake [x] of the mining [k], delegated to [D] in the name of the pool [p]: counted by [P] if
    it is that pool, and by a mining of [P] if [D] is one *)
Definition stray (L : ledger) (p P k D x : Z) : Z :=
  if D =? k then 0 else (if p =? P then x else 0) - (if of_pool L P D then x else 0).

(** [x] is what the instruction adds to the gap of [P] on day [d] *)
Definition moves (e : env) (ts : Z) (ms : list meta) (i : ix) (L : ledger) (P d x : Z) : Prop :=
  match i with
  | DepositMining a per _ _ =>
      exists p k D w m, account_at ms 0 p /\ account_at ms 1 k /\ account_at ms 3 D /\
        is_pool e L p w /\ is_mining e L k m /\
        x = stray L p P k D a +
            if p =? P
            then lost 365 (expiry per ts) (a * (weight_of per - 1)) (wp_diffs w) d
                 - lost 50 (expiry per ts) (a * (weight_of per - 1)) (after (day_start ts) (wm_diffs m)) d
            else 0
  | WithdrawMining a _ _ =>
      exists p k D, account_at ms 0 p /\ account_at ms 1 k /\ account_at ms 3 D /\ x = - stray L p P k D a
  | ExtendStake old new start b a _ _ =>
      exists p k D w m, account_at ms 0 p /\ account_at ms 1 k /\ account_at ms 3 D /\
        is_pool e L p w /\ is_mining e L k m /\
        x = stray L p P k D a +
            if p =? P
            then lost 365 (expiry new ts) ((b + a) * (weight_of new - 1)) (wp_diffs w) d
                 - lost 50 (expiry new ts) ((b + a) * (weight_of new - 1)) (after (day_start ts) (wm_diffs m)) d
                 - (if unexpired old start ts && (expiry old start <=? d) then b * (weight_of old - 1) else 0)
            else 0
  | ChangeDelegate a _ =>
      exists p k O N, account_at ms 0 p /\ account_at ms 1 k /\ account_at ms 4 O /\ account_at ms 5 N /\
        x = stray L p P k N a - stray L p P k O a
  | DecreaseRewards _ n =>
      exists p k m, account_at ms 1 p /\ account_at ms 2 k /\ is_mining e L k m /\
        x = if p =? P
            then n - Z.min n (total (wm_diffs m)) + Z.min n (total (after d (wm_diffs m)))
            else 0
  | CloseMining =>
      exists k m, account_at ms 0 k /\ is_mining e L k m /\ x = if of_pool L P k then eff m d else 0
  | _ => x = 0
  end.

(** the same for one event; what happens outside the program moves nothing *)
Definition event_moves (e : env) (ev : event) (L : ledger) (P d x : Z) : Prop :=
  match ev with EvIx ts ms i => moves e ts ms i L P d x | EvExt _ => x = 0 end.
(** [drift e P d now L evs now' L' x]: the history leads from [L] to [L'], and its events move the
    gap by [x] in all *)
Inductive drift (e : env) (P d : Z) : Z -> ledger -> list event -> Z -> ledger -> Z -> Prop :=
| dr_nil now L : drift e P d now L [] now L 0
| dr_cons now L ev L1 evs now' L' x y :
    step e now L ev L1 -> event_moves e ev L P d x -> drift e P d (time_of ev) L1 evs now' L' y ->
    drift e P d now L (ev :: evs) now' L' (x + y).

(** the calls that derive the delegate's address from a wallet and the pool, and the position of
    that account (programs/rewards/src/instruction.rs 59-169) *)
Definition checks_delegate (i : ix) : Prop :=
  match i with DepositMining _ _ _ _ | WithdrawMining _ _ _ | ExtendStake _ _ _ _ _ _ _ | ChangeDelegate _ _ => True | _ => False end.
Definition delegate_at (i : ix) : nat := match i with ChangeDelegate _ _ => 5 | _ => 3 end.

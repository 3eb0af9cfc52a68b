(** Claim C84: the diary of a mining, which is all that its contents depend on. *)
From stdpp Require Import gmap.
From Verif Require Import Base State Spec EffectSpec Ledger Program LedgerLemmas LedgerSpec CodecLemmas History HistoryThms FreezeSpec CapSpec IncomeSpec.

(** where an instruction lists the minings that it writes *)
Definition writes_at (i : ix) : list nat :=
  match i with DecreaseRewards _ _ => [2%nat] | _ => worked_on i end.
(** at which of these places a call lists [k] *)
Definition places (k : pubkey) (ms : list meta) (i : ix) : list nat := filter (fun n => names ms n k) (writes_at i).

(** an instruction without the wallets it names *)
Definition gist (i : ix) : ix :=
  match i with
  | InitializePool _ _ => InitializePool 0 0
  | InitializeMining _ => InitializeMining 0
  | DepositMining a p _ _ => DepositMining a p 0 0
  | WithdrawMining a _ _ => WithdrawMining a 0 0
  | ExtendStake op np s b a _ _ => ExtendStake op np s b a 0 0
  | ChangeDelegate a _ => ChangeDelegate a 0
  | Slash _ n w d => Slash 0 n w d
  | DecreaseRewards _ n => DecreaseRewards 0 n
  | FillVault _ _ | Claim | DistributeRewards | CloseMining => i
  end.

(** the distributions recorded in the pool that the call names; a penalty does not look at them *)
Definition shown (L : ledger) (ms : list meta) (i : ix) : sched :=
  match i with
  | DecreaseRewards _ _ => []
  | _ => match nth_error (map mt_key ms) (pool_position i) with
         | Some Q => match data_of L Q with DPool w => wp_ci w | _ => [] end
         | None => []
         end
  end.

(** One line of the diary: time, instruction and amounts, the places of the mining in it, and the
    recorded distributions.  Not who signs, who else takes part, or what any other account holds. *)
Definition line : Type := Z * ix * list nat * sched.
Definition note (k : pubkey) (ts : Z) (ms : list meta) (i : ix) (L : ledger) : list line :=
  match places k ms i with
  | [] => []
  | l => [(ts, gist i, l, shown L ms i)]
  end.

Definition open (e : env) (k : pubkey) (L : ledger) : Prop := exists m, is_mining e L k m /\ m_type (wm m) = 2.

(** histories during which the mining [k] is open, with its diary and the tokens paid for it *)
Inductive diary (e : env) (k : pubkey) : Z -> ledger -> Z -> ledger -> list line -> Z -> Prop :=
| di_nil now L : open e k L -> diary e k now L now L [] 0
| di_ix now L ts ms i L1 r now' L' d x :
    open e k L -> now <= ts -> is_u64 ts -> ix_in_range i -> exec e ts ms i L = Ok (L1, r) ->
    diary e k ts L1 now' L' d x ->
    diary e k now L now' L' (note k ts ms i L ++ d) (takes k ms i r + x)
| di_ext now L ts L1 now' L' d x :
    open e k L -> now <= ts -> is_u64 ts -> external e L L1 ->
    diary e k ts L1 now' L' d x -> diary e k now L now' L' d x.

(** minings that differ at most in pool, owner, mint, bump and account type *)
Definition alike (m n : wmining) : Prop :=
  m_index (wm m) = m_index (wm n) /\ m_share (wm m) = m_share (wm n) /\ m_unclaimed (wm m) = m_unclaimed (wm n) /\
  m_sfo (wm m) = m_sfo (wm n) /\ wm_diffs m = wm_diffs n.
